(** How a figure is processed, as a list of steps fixed by its table: own events and nested
    figures, in order. *)
From Coq Require Import NArith ZArith List Bool String Lia ZifyBool ZifyN.
From Verif Require Import PyTables PyStr PyStrFacts Regex Regexes Xml Json Lint RowIter Helpers Extract Document
  MFacts SpecText SpecFields SpecLabel SpecHeader SpecRows SpecTable SpecDoc
  RangeProofs LabelProofs ValidateProofs RowProofs HeaderProofs TableProofs SizeProofs Prop_Header DocProofs SpecNames NameProofs CellRead.
Import ListNotations.
Local Open Scope list_scope.
Local Open Scope N_scope.
Local Open Scope m_scope.

Inductive step := SOwn (evs : list event) | SNest (m : meta) (tbl : elem).

Fixpoint exec {A} (p : meta -> elem -> M unit) (s : list step) (fin : res A) : M A :=
  match s with
  | [] => fun f => (fin, f, [])
  | SOwn evs :: r => fun f => let '(a, f', t) := exec p r fin f in (a, f', evs ++ t)
  | SNest m tbl :: r => p m tbl ;; exec p r fin
  end.

Definition nests (s : list step) : list (meta * elem) :=
  flat_map (fun a => match a with SNest m tbl => [(m, tbl)] | SOwn _ => [] end) s.

(** The computation follows the steps, whatever nested figures do. *)
Definition follows {A} (c : (meta -> elem -> M unit) -> M A) (s : list step) (fin : res A) : Prop :=
  fin <> OutOfFuel /\ forall p f, c p f = exec p s fin f.

Lemma nests_app a b : nests (a ++ b) = nests a ++ nests b.
Proof. apply flat_map_app. Qed.

Lemma exec_bind {A B} p s1 (a : A) (k : A -> M B) s2 fin f :
  (forall f, k a f = exec p s2 fin f) -> bind (exec p s1 (Ok a)) k f = exec p (s1 ++ s2) fin f.
Proof.
  intros H. revert f. induction s1 as [|[evs|m tbl] s1 IH]; intros f.
  - cbn. unfold bind. rewrite H. destruct (exec p s2 fin f) as [[r f'] t]. reflexivity.
  - cbn [exec app]. rewrite <- IH. unfold bind. destruct (exec p s1 (Ok a) f) as [[[b|e|] f1] t1]; try reflexivity.
    destruct (k b f1) as [[r2 f2] t2]. rewrite app_assoc. reflexivity.
  - cbn [exec app]. rewrite bind_assoc. apply bind_k. intros _ g. apply IH.
Qed.
Lemma exec_bind_exn {A B} p s (e : exn) (k : A -> M B) f :
  bind (exec p s (Exn e)) k f = exec p s (Exn e) f.
Proof.
  revert f. induction s as [|[evs|m tbl] s IH]; intros f.
  - reflexivity.
  - cbn [exec]. rewrite <- IH. unfold bind. destruct (exec p s (Exn e) f) as [[[b|e'|] f1] t1]; try reflexivity.
    destruct (k b f1) as [[r2 f2] t2]. rewrite app_assoc. reflexivity.
  - cbn [exec]. rewrite bind_assoc. apply bind_k. intros _ g. apply IH.
Qed.

Lemma follows_bind {A B} (c : (meta -> elem -> M unit) -> M A) (k : (meta -> elem -> M unit) -> A -> M B) s1 a s2 fin :
  follows c s1 (Ok a) -> follows (fun p => k p a) s2 fin ->
  follows (fun p => bind (c p) (k p)) (s1 ++ s2) fin.
Proof.
  intros [_ H1] [N2 H2]. split; [exact N2|]. intros p f. rewrite <- (exec_bind p s1 a (k p)).
  - apply bind_ext; [apply H1 | reflexivity].
  - apply H2.
Qed.
Lemma follows_bind_exn {A B} (c : (meta -> elem -> M unit) -> M A) (k : (meta -> elem -> M unit) -> A -> M B) s e :
  follows c s (Exn e) -> follows (fun p => bind (c p) (k p)) s (Exn e).
Proof.
  intros [_ H1]. split; [discriminate|]. intros p f. rewrite <- (exec_bind_exn p s e (k p)).
  apply bind_ext; [apply H1 | reflexivity].
Qed.
Lemma follows_ret {A} (a : A) : follows (fun _ => ret a) [] (Ok a).
Proof. split; [discriminate | reflexivity]. Qed.
Lemma follows_throw {A} e : follows (fun _ => @throw A e) [] (Exn e).
Proof. split; [discriminate | reflexivity]. Qed.
Lemma follows_nested m subs :
  follows (fun p => iterM (p m) subs) (map (SNest m) subs) (Ok tt).
Proof.
  split; [discriminate|]. intros p. induction subs as [|a subs IH]; intros f; [reflexivity|].
  cbn [iterM map exec]. apply bind_k. intros _ g. apply IH.
Qed.
Lemma nests_map m subs : nests (map (SNest m) subs) = map (fun sub => (m, sub)) subs.
Proof. induction subs as [|a subs IH]; [reflexivity|]. cbn. f_equal. exact IH. Qed.

(** ** Computations without nested figures *)
Definition fueled {A} (m : M A) : Prop := forall f, fst (fst (m f)) <> OutOfFuel.
Lemma fueled_ret {A} (a : A) : fueled (ret a). Proof. intros f. discriminate. Qed.
Lemma fueled_throw {A} e : fueled (@throw A e). Proof. intros f. discriminate. Qed.
Lemma fueled_bind {A B} (m : M A) (k : A -> M B) : fueled m -> (forall a, fueled (k a)) -> fueled (bind m k).
Proof.
  intros H1 H2 f. specialize (H1 f). unfold bind. destruct (m f) as [[[a|e|] f1] t1]; cbn in *; try congruence.
  specialize (H2 a f1). destruct (k a f1) as [[r2 f2] t2]. exact H2.
Qed.
Lemma fueled_issue c fig row ctx : fueled (add_issue c fig row ctx).
Proof. intros f. unfold add_issue. destruct (seqb fig []); [discriminate|]. destruct (_ && _); discriminate. Qed.

Ltac fueled_step :=
  match goal with
  | |- fueled (ret _) => apply fueled_ret
  | |- fueled (throw _) => apply fueled_throw
  | |- fueled (issue _ _ _ _) => apply fueled_issue
  | |- fueled (add_issue _ _ _ _) => apply fueled_issue
  | |- fueled (bind _ _) => apply fueled_bind; [|intros ?]
  | |- fueled (if ?b then _ else _) => destruct b
  | |- fueled (match ?b with _ => _ end) => destruct b
  end.
Lemma fueled_range x t key : fueled (parse_range x t key).
Proof. unfold parse_range. repeat fueled_step. Qed.
Lemma fueled_dynamic x t : fueled (parse_dynamic_range x t).
Proof. unfold parse_dynamic_range. cbv zeta. repeat fueled_step. Qed.
Lemma fueled_label x t key : fueled (parse_label x t key).
Proof. unfold parse_label, extract_label_same, extract_label_separate, validate_label. cbv zeta. repeat fueled_step. Qed.
Lemma fueled_value_label x row v c : fueled (extract_value_label x row v c).
Proof. unfold extract_value_label, finish_value_label, extract_label_dedicated, validate_label. cbv zeta. repeat fueled_step. Qed.

Lemma flagless_range x t key : flagless (parse_range x t key).
Proof.
  unfold parse_range. destruct (re_match _ t) as [g|]; [|apply flagless_bind; [apply flagless_add_issue | intros; apply flagless_ret]].
  destruct (group G_high g) as [hs|]; [|apply flagless_throw]. destruct (py_int hs); [|apply flagless_throw].
  match goal with |- flagless (match ?b with _ => _ end) => destruct b end; [|apply flagless_throw].
  apply flagless_bind; [|intros; apply flagless_ret]. destruct (Z.ltb _ _); [apply flagless_add_issue | apply flagless_ret].
Qed.
Lemma flagless_dynamic x t : flagless (parse_dynamic_range x t).
Proof.
  unfold parse_dynamic_range. cbv zeta. destruct (re_match _ _) as [g|]; [|apply flagless_bind; [apply flagless_add_issue | intros; apply flagless_ret]].
  destruct (group G_low g), (group G_high g); apply flagless_ret || apply flagless_throw.
Qed.
Lemma flagless_label x t key : flagless (parse_label x t key).
Proof.
  unfold parse_label. apply flagless_bind; [|intros a; apply flagless_bind].
  - destruct (Nat.eqb _ _).
    + unfold extract_label_same. destruct (re_match _ t); [|apply flagless_bind; [apply flagless_add_issue | intros; apply flagless_ret]].
      destruct (grp_nonempty _ _); [apply flagless_ret|]. destruct (grp_nonempty _ _).
      * destruct (smem _ _); apply flagless_ret.
      * apply flagless_bind; [apply flagless_add_issue | intros; apply flagless_ret].
    + unfold extract_label_separate. destruct (split1 58 t) as [h [u|]];
        (apply flagless_bind; [|intros; apply flagless_ret]); [|apply flagless_add_issue].
      destruct (has_char 32 h); [apply flagless_add_issue | apply flagless_ret].
  - apply validate_label_flagless.
  - intros; apply flagless_ret.
Qed.

(** Events that are lint entries of the rows of the figure. *)
Definition own_lints (x : xctx) (evs : list event) : Prop :=
  forall e, In e evs -> exists l, e = EvLint l /\ l_fig l = x_fig x /\ In (l_code l) [R1001; R1002; L1000; L1003; L1004; L1007].
Definition own_steps (x : xctx) (s : list step) : Prop :=
  forall evs, In (SOwn evs) s -> own_lints x evs.

Lemma own_steps_app x a b : own_steps x a -> own_steps x b -> own_steps x (a ++ b).
Proof. intros H1 H2 evs H. apply in_app_or in H as [H | H]; auto. Qed.
Lemma own_steps_nil x : own_steps x [].
Proof. intros ? []. Qed.
Lemma own_steps_nest x m subs : own_steps x (map (SNest m) subs).
Proof. intros evs H. apply in_map_iff in H as (a & H & _). discriminate. Qed.

Lemma follows_flagless {A} x (c : M A) (Q : A -> Prop) : flagless c -> fueled c -> safe (own x) no_assert Q c ->
  exists evs fin, follows (fun _ => c) [SOwn evs] fin /\ own_lints x evs /\ (forall a, fin = Ok a -> Q a)
    /\ (forall e, fin = Exn e -> no_assert e) /\ forall f, c f = (fin, f, evs).
Proof.
  intros (r & t & E) F S. exists t, r. specialize (F false). rewrite E in F. cbn in F.
  destruct (S _ _ _ _ (E false)) as (S1 & S2 & S3).
  split; [|split; [|split; [exact S2 | split; [exact S3 | exact E]]]].
  - split; [exact F|]. intros p f. cbn [exec]. rewrite E, app_nil_r. reflexivity.
  - intros e He. destruct (S1 e He) as (l & H1 & H2 & H3 & _). exists l. auto.
Qed.

(** ** One row, all rows *)
Lemma row_follows x dyn y : x_fig x <> [] ->
  exists s fin, follows (fun p => row_step p x dyn y) s fin /\ own_steps x s
    /\ match fin with
       | Ok (RStop _) => row_ends x y /\ nests s = []
       | Ok _ => ~ row_ends x y /\ row_figs x dyn y (nests s)
       | _ => nests s = []
       end.
Proof.
  intros Hx. unfold row_step. destruct (extract_fields x (y_row y)) as [[[[rt ct] lt] c]|] eqn:EF.
  - apply extract_fields_some in EF as (k & l & RC & -> & -> & ->).
    assert (NY : ~ row_ends x y) by (intros [u N _ | ex N _ _ _]; exact (N _ _ _ RC)).
    destruct (is_special_case (to_text k) || is_special_case (to_text l) || is_special_case (to_text c)) eqn:SP.
    + assert (RF : row_figs x dyn y []).
      { right. split; [|reflexivity]. intros k' c' l' RC'. destruct (row_cells_fun _ _ _ _ _ _ _ _ RC RC') as (<- & <- & <-).
        apply orb_true_iff in SP as [SP | SP]; [apply orb_true_iff in SP as [SP | SP]|]; apply special_iff in SP; auto. }
      destruct (is_special_case (to_text k)).
      * exists [], (Ok RNone). split; [apply follows_ret|]. split; [apply own_steps_nil|]. split; [exact NY | exact RF].
      * destruct (follows_flagless x _ _ (flagless_range x (to_text k) (to_text k)) (fueled_range _ _ _) (parse_range_own x _ _ Hx)) as (evs & fin & F & O & _ & _).
        assert (OS : own_steps x [SOwn evs]) by (intros e [[= <-] | []]; exact O).
        destruct fin as [r|e|]; [| |destruct (proj1 F eq_refl)].
        -- exists ([SOwn evs] ++ []), (Ok (match handle_special_case (to_text c) r with Some f => RField f | None => RNone end)).
           split; [|split; [apply own_steps_app; [exact OS | apply own_steps_nil] | destruct (handle_special_case _ r); split; assumption]].
           apply (follows_bind (fun _ => parse_range x (to_text k) (to_text k))
             (fun _ r => ret (match handle_special_case (to_text c) r with Some f => RField f | None => RNone end)) _ r _ _ F).
           apply follows_ret.
        -- exists [SOwn evs], (Exn e). split; [|split; [exact OS | reflexivity]].
           apply (follows_bind_exn (fun _ => parse_range x (to_text k) (to_text k)) (fun _ r => _) _ _ F).
    + apply orb3_false in SP as (S1 & S2 & S3). apply special_not in S1, S2, S3.
      assert (RR : exists evs fin, follows (fun _ => if dyn then parse_dynamic_range x (to_text k) else parse_range x (to_text k) (to_text k)) [SOwn evs] fin
                /\ own_lints x evs /\ (forall r, fin = Ok r -> if dyn then reads_formula (to_text k) r else reads_numbers (to_text k) r)).
      { destruct dyn.
        - destruct (follows_flagless x _ _ (flagless_dynamic x (to_text k)) (fueled_dynamic _ _) (parse_dynamic_own x _ Hx)) as (evs & fin & F & O & _ & _ & E).
          exists evs, fin. split; [exact F|]. split; [exact O|]. intros r ->. specialize (E false). apply parse_dynamic_inv in E; [|exact Hx]. tauto.
        - destruct (follows_flagless x _ _ (flagless_range x (to_text k) (to_text k)) (fueled_range _ _ _) (parse_range_own x _ _ Hx)) as (evs & fin & F & O & _ & _ & E).
          exists evs, fin. split; [exact F|]. split; [exact O|]. intros r ->. specialize (E false). apply parse_range_inv in E; [|exact Hx]. tauto. }
      destruct RR as (evs & fin & F & O & RR).
      assert (OS : own_steps x [SOwn evs]) by (intros e [[= <-] | []]; exact O).
      destruct fin as [r|e|]; [| |destruct (proj1 F eq_refl)].
      2: { exists [SOwn evs], (Exn e). split; [|split; [exact OS | reflexivity]].
           apply (follows_bind_exn (fun _ => if dyn then parse_dynamic_range x (to_text k) else parse_range x (to_text k) (to_text k)) (fun p r => _) _ _ F). }
      specialize (RR r eq_refl).
      destruct (follows_flagless x _ _ (flagless_label x (to_text l) (key_of_range r)) (fueled_label _ _ _) (parse_label_own x _ _ Hx)) as (evs2 & fin2 & F2 & O2 & _ & _).
      assert (OS2 : own_steps x [SOwn evs2]) by (intros e [[= <-] | []]; exact O2).
      destruct fin2 as [lbl|e|]; [| |destruct (proj1 F2 eq_refl)].
      2: { exists ([SOwn evs] ++ [SOwn evs2]), (Exn e). split; [|split; [apply own_steps_app; assumption | reflexivity]].
           apply (follows_bind _ (fun p r => _) _ r _ _ F).
           apply (follows_bind_exn (fun _ => parse_label x (to_text l) (key_of_range r)) (fun p r => _) _ _ F2). }
      exists ([SOwn evs] ++ [SOwn evs2] ++ map (SNest (sub_meta (x_fig x) (key_of_range r))) (children t_table c) ++ []),
        (Ok (RField (struct_field r lbl (content_extract_brief (to_text c) BRIEF_MAXLEN)))).
      split; [|split].
      * apply (follows_bind _ (fun p r => _) _ r _ _ F). apply (follows_bind (fun _ => parse_label x (to_text l) (key_of_range r)) (fun p r => _) _ lbl _ _ F2).
        apply (follows_bind (fun p => iterM (p (sub_meta (x_fig x) (key_of_range r))) (children t_table c)) (fun p _ => _) _ tt).
        -- apply follows_nested.
        -- apply follows_ret.
      * repeat apply own_steps_app; try assumption; [apply own_steps_nest | apply own_steps_nil].
      * split; [exact NY|]. left. exists k, c, l, r. repeat (split; [assumption|]).
        rewrite app_nil_r, !nests_app, nests_map. reflexivity.
  - pose proof (proj1 (extract_fields_none _ _) EF) as EF'. clear EF. rename EF' into EF.
    assert (RF : row_figs x dyn y []).
    { right. split; [|reflexivity]. intros k c l RC. destruct (EF _ _ _ RC). }
    destruct (startswith ELLIPSIS (lower (to_text (y_row y)))) eqn:E1.
    + exists [], (Ok (RField (struct_field (RInt (-1) (-1)) ELLIPSIS None))). split; [apply follows_ret|].
      split; [apply own_steps_nil|]. split; [|exact RF].
      apply startswith_app in E1 as (u & E1). intros [v N EN | ex N NE NN RE].
      * rewrite E1 in EN. discriminate.
      * exact (NE _ E1).
    + destruct (startswith (utf8 "note") (lower (to_text (y_row y)))) eqn:E2.
      * exists [], (Ok (RStop None)). split; [apply follows_ret|]. split; [apply own_steps_nil|]. split; [|reflexivity].
        apply startswith_app in E2 as (u & E2). eapply re_note; eassumption.
      * assert (A1 : forall u, lower (to_text (y_row y)) <> lbl_ellipsis ++ u).
        { intros u E. apply not_true_iff_false in E1. apply E1, startswith_app. exists u. exact E. }
        assert (A2 : forall u, lower (to_text (y_row y)) <> utf8 "note" ++ u).
        { intros u E. apply not_true_iff_false in E2. apply E2, startswith_app. exists u. exact E. }
        destruct (row_err_handler (ec_handler (x_cls x)) y) as [pol ex] eqn:RE. destruct pol.
        -- eexists [], _. split; [apply follows_ret|]. split; [apply own_steps_nil|]. split; [|reflexivity].
           apply splits_iff in RE as (n & -> & RE). eapply re_split; eassumption.
        -- eexists [], _. split; [apply follows_ret|]. split; [apply own_steps_nil|]. split; [|exact RF].
           intros [v N EN | n N NE NN RE']; [exact (A2 _ EN)|]. apply tolerated_iff in RE as (_ & RE). pose proof (handler_says x y) as HS.
           rewrite (proj2 (splits_iff x y (Some n)) (ex_intro _ n (conj eq_refl RE'))) in HS. destruct HS as (? & _ & _ & NT). contradiction.
        -- eexists [], _. split; [apply follows_throw|]. split; [apply own_steps_nil | reflexivity].
Qed.

Lemma rows_follow x rows finE : x_fig x <> [] -> forall dyn fields,
  exists s fin, follows (fun p => run_rows p x rows finE dyn fields) s fin /\ own_steps x s
    /\ exists a b, rows = a ++ b /\ rows_figs x dyn a (nests s) /\ (forall r, fin = Ok r -> b = []).
Proof.
  intros Hx. induction rows as [|y rows IH]; intros dyn fields.
  - cbn [run_rows]. destruct finE as [e|].
    + exists [], (Exn e). split; [apply follows_throw|]. split; [apply own_steps_nil|].
      exists [], []. split; [reflexivity|]. split; [constructor | discriminate].
    + exists [], (Ok (fields, None)). split; [apply follows_ret|]. split; [apply own_steps_nil|].
      exists [], []. split; [reflexivity|]. split; [constructor | reflexivity].
  - cbn [run_rows]. destruct (contains_th (y_row y)) eqn:TH.
    + destruct (IH (dyn || announces_list (y_row y)) fields) as (s & fin & F & O & a & b & -> & RF & B).
      exists s, fin. split; [exact F|]. split; [exact O|]. exists (y :: a), b. split; [reflexivity|]. split; [|exact B].
      apply rf_header; [|exact RF]. intros E. apply contains_th_children in E. congruence.
    + apply contains_th_children in TH.
      destruct (row_follows x dyn y Hx) as (s1 & fin1 & F1 & O1 & R1).
      destruct fin1 as [o|e|]; [| |destruct (proj1 F1 eq_refl)].
      2: { exists s1, (Exn e). split; [|split; [exact O1|]].
           - apply (follows_bind_exn (fun p => row_step p x dyn y) (fun p o => _) _ _ F1).
           - exists [], (y :: rows). split; [reflexivity|]. rewrite R1. split; [constructor | discriminate]. }
      assert (K : forall fields', (o = RNone /\ fields' = fields) \/ (exists fld, o = RField fld /\ fields' = fields ++ [fld]) ->
         exists s fin, follows (fun p => bind (row_step p x dyn y) (fun o => match o with
              | RField f => run_rows p x rows finE dyn (fields ++ [f])
              | RNone => run_rows p x rows finE dyn fields
              | RStop ex => ret (fields, ex) end)) s fin /\ own_steps x s
         /\ exists a b, y :: rows = a ++ b /\ rows_figs x dyn a (nests s) /\ (forall r, fin = Ok r -> b = [])).
      { intros fields' Ho. destruct (IH dyn fields') as (s & fin & F & O & a & b & -> & RF & B).
        exists (s1 ++ s), fin. split; [|split; [apply own_steps_app; assumption|]].
        - apply (follows_bind (fun p => row_step p x dyn y) (fun p o => _) s1 o s fin F1).
          destruct Ho as [[-> ->] | (fld & -> & ->)]; exact F.
        - exists (y :: a), b. split; [reflexivity|]. split; [|exact B]. rewrite nests_app.
          destruct Ho as [[-> ->] | (fld & -> & ->)]; destruct R1 as [R1 R2]; apply rf_row; assumption. }
      destruct o as [fld| |ex].
      * apply (K (fields ++ [fld])). right. eauto.
      * apply (K fields). left. auto.
      * destruct R1 as [R1 R2]. exists (s1 ++ []), (Ok (fields, ex)). split; [|split; [apply own_steps_app; [exact O1 | apply own_steps_nil]|]].
        -- apply (follows_bind (fun p => row_step p x dyn y) (fun p o => _) s1 (RStop ex) [] _ F1), follows_ret.
        -- exists (y :: rows), []. rewrite !app_nil_r, R2. split; [reflexivity|]. split; [apply rf_stop; assumption | reflexivity].
Qed.

Lemma value_label_own ov x row val c : x_fig x <> [] ->
  exists evs fin, follows (fun _ => match override_of ov (x_fig x) val with
                  | None => extract_value_label x row val c
                  | Some l => issue x L1007 (Some val) [] ;; ret l
                  end) [SOwn evs] fin /\ own_lints x evs.
Proof.
  intros Hx. destruct (override_of ov (x_fig x) val) as [l|].
  - destruct (follows_flagless x (issue x L1007 (Some val) [] ;; ret l) T1) as (evs & fin & F & O & _).
    + apply flagless_bind; [apply flagless_add_issue | intros; apply flagless_ret].
    + apply fueled_bind; [apply fueled_issue | intros; apply fueled_ret].
    + repeat own_step.
    + eauto.
  - destruct (follows_flagless x (extract_value_label x row val c) T1) as (evs & fin & F & O & _).
    + apply extract_value_label_flagless.
    + apply fueled_value_label.
    + apply (extract_value_label_own x row val c Hx).
    + eauto.
Qed.

Lemma vrow_follows ov x y : x_fig x <> [] ->
  exists s fin, follows (fun p => vrow_step p ov x y) s fin /\ own_steps x s
    /\ match fin with
       | Ok VStop => vrow_ends x y /\ nests s = []
       | Ok _ => ~ vrow_ends x y /\ vrow_figs x y (nests s)
       | _ => nests s = []
       end.
Proof.
  intros Hx. unfold vrow_step.
  assert (N : (forall k c, ~ value_cells x (y_row y) k c) ->
     exists s fin, follows (fun p => if startswith ELLIPSIS (lower (to_text (y_row y))) then ret (VField (mkVField ELLIPSIS ELLIPSIS None))
       else if startswith (utf8 "notes:") (lower (to_text (y_row y))) then ret VStop else ret VNone) s fin /\ own_steps x s
    /\ match fin with
       | Ok VStop => vrow_ends x y /\ nests s = []
       | Ok _ => ~ vrow_ends x y /\ vrow_figs x y (nests s)
       | _ => nests s = []
       end).
  { intros NC. assert (VF : vrow_figs x y []) by (right; split; [intros k c V; destruct (NC _ _ V) | reflexivity]).
    destruct (startswith ELLIPSIS (lower (to_text (y_row y)))) eqn:E1; [|destruct (startswith (utf8 "notes:") (lower (to_text (y_row y)))) eqn:E2].
    - eexists [], _. split; [apply follows_ret|]. split; [apply own_steps_nil|]. split; [|exact VF].
      intros [_ (u & E)]. rewrite E in E1. discriminate.
    - eexists [], _. split; [apply follows_ret|]. split; [apply own_steps_nil|]. split; [|reflexivity].
      apply startswith_app in E2. split; assumption.
    - eexists [], _. split; [apply follows_ret|]. split; [apply own_steps_nil|]. split; [|exact VF].
      intros [_ E]. apply startswith_app in E. congruence. }
  destruct (key_elem x (y_row y)) as [k|] eqn:EK, (content_elem x (y_row y)) as [c|] eqn:EC.
  2,3,4: apply N; intros k' c' [V1 V2]; unfold key_elem, content_elem, nth_child in *; congruence.
  assert (VC : value_cells x (y_row y) k c) by (split; assumption).
  assert (NE : ~ vrow_ends x y) by (intros [H _]; exact (H _ _ VC)).
  destruct (seqb_spec (lower (to_text k)) ELLIPSIS) as [E|E].
  - eexists [], _. split; [apply follows_ret|]. split; [apply own_steps_nil|]. split; [exact NE|].
    right. split; [|reflexivity]. intros k' c' [V1 _]. destruct VC as [V2 _]. replace k' with k by congruence. exact E.
  - destruct (value_label_own ov x (y_row y) (lower (to_text k)) c Hx) as (evs & fin & F & O).
    assert (OS : own_steps x [SOwn evs]) by (intros e [[= <-] | []]; exact O).
    destruct fin as [lbl|e|]; [| |destruct (proj1 F eq_refl)].
    + exists ([SOwn evs] ++ map (SNest (sub_meta (x_fig x) (lower (to_text k)))) (children t_table c) ++ []),
        (Ok (VField (mkVField (lower (to_text k)) lbl (content_extract_brief (to_text c) BRIEF_MAXLEN)))).
      split; [|split].
      * apply (follows_bind _ (fun p r => _) _ lbl _ _ F).
        apply (follows_bind (fun p => iterM (p (sub_meta (x_fig x) (lower (to_text k)))) (children t_table c)) (fun p _ => _) _ tt); [apply follows_nested | apply follows_ret].
      * repeat apply own_steps_app; try assumption; [apply own_steps_nest | apply own_steps_nil].
      * split; [exact NE|]. left. exists k, c. split; [exact VC|]. split; [exact E|].
        rewrite app_nil_r, nests_app, nests_map. reflexivity.
    + exists [SOwn evs], (Exn e). split; [|split; [exact OS | reflexivity]].
      match goal with |- follows (fun p => bind ?m _) _ _ => apply (follows_bind_exn (fun _ => m) (fun p r => _) _ _ F) end.
Qed.

Lemma vrows_follow ov x rows finE : x_fig x <> [] -> forall fields,
  exists s fin, follows (fun p => vrun_rows p ov x rows finE fields) s fin /\ own_steps x s
    /\ exists a b, rows = a ++ b /\ vrows_figs x a (nests s) /\ (forall r, fin = Ok r -> b = []).
Proof.
  intros Hx. induction rows as [|y rows IH]; intros fields.
  - cbn [vrun_rows]. destruct finE as [e|].
    + exists [], (Exn e). split; [apply follows_throw|]. split; [apply own_steps_nil|].
      exists [], []. split; [reflexivity|]. split; [constructor | discriminate].
    + exists [], (Ok fields). split; [apply follows_ret|]. split; [apply own_steps_nil|].
      exists [], []. split; [reflexivity|]. split; [constructor | reflexivity].
  - cbn [vrun_rows]. destruct (contains_th (y_row y)) eqn:TH.
    + destruct (IH fields) as (s & fin & F & O & a & b & -> & RF & B).
      exists s, fin. split; [exact F|]. split; [exact O|]. exists (y :: a), b. split; [reflexivity|]. split; [|exact B].
      apply vf_header; [|exact RF]. intros E. apply contains_th_children in E. congruence.
    + apply contains_th_children in TH.
      destruct (vrow_follows ov x y Hx) as (s1 & fin1 & F1 & O1 & R1).
      destruct fin1 as [o|e|]; [| |destruct (proj1 F1 eq_refl)].
      2: { exists s1, (Exn e). split; [|split; [exact O1|]].
           - apply (follows_bind_exn (fun p => vrow_step p ov x y) (fun p o => _) _ _ F1).
           - exists [], (y :: rows). split; [reflexivity|]. rewrite R1. split; [constructor | discriminate]. }
      assert (K : forall fields', (o = VNone /\ fields' = fields) \/ (exists fld, o = VField fld /\ fields' = fields ++ [fld]) ->
         exists s fin, follows (fun p => bind (vrow_step p ov x y) (fun o => match o with
              | VField f => vrun_rows p ov x rows finE (fields ++ [f])
              | VNone => vrun_rows p ov x rows finE fields
              | VStop => ret fields end)) s fin /\ own_steps x s
         /\ exists a b, y :: rows = a ++ b /\ vrows_figs x a (nests s) /\ (forall r, fin = Ok r -> b = [])).
      { intros fields' Ho. destruct (IH fields') as (s & fin & F & O & a & b & -> & RF & B).
        exists (s1 ++ s), fin. split; [|split; [apply own_steps_app; assumption|]].
        - apply (follows_bind (fun p => vrow_step p ov x y) (fun p o => _) s1 o s fin F1).
          destruct Ho as [[-> ->] | (fld & -> & ->)]; exact F.
        - exists (y :: a), b. split; [reflexivity|]. split; [|exact B]. rewrite nests_app.
          destruct Ho as [[-> ->] | (fld & -> & ->)]; destruct R1 as [R1 R2]; apply vf_row; assumption. }
      destruct o as [fld| |].
      * apply (K (fields ++ [fld])). right. eauto.
      * apply (K fields). left. auto.
      * destruct R1 as [R1 R2]. exists (s1 ++ []), (Ok fields). split; [|split; [apply own_steps_app; [exact O1 | apply own_steps_nil]|]].
        -- apply (follows_bind (fun p => vrow_step p ov x y) (fun p o => _) s1 VStop [] _ F1), follows_ret.
        -- exists (y :: rows), []. rewrite !app_nil_r, R2. split; [reflexivity|]. split; [apply vf_stop; assumption | reflexivity].
Qed.

(** ** A whole table *)
Definition call_of (P : parser) (x : xctx) (tbl : elem) (p : meta -> elem -> M unit) : M unit :=
  match ec_kind (x_cls x) with
  | EKStruct k => struct_call p x k tbl
  | EKValues => value_call p (p_label_overrides P) x tbl
  end.

Inductive extra_of (x : xctx) (tbl : elem) : list (meta * elem) -> Prop :=
| ex_none : extra_of x tbl []
| ex_split y m' tbl' :
    In y (fst (row_iter tbl)) -> row_err_handler (ec_handler (x_cls x)) y = (PStop, Some (m', tbl')) ->
    extra_of x tbl [(m', tbl')].
Lemma extra_splits x tbl y n : In y (fst (row_iter tbl)) -> splits_off x y n -> extra_of x tbl [n].
Proof. destruct n as [m' tbl']. intros I O. eapply ex_split; [exact I | apply splits_iff; eauto]. Qed.

Definition snests (l : list (meta * elem)) : list step := map (fun n => SNest (fst n) (snd n)) l.

Lemma exec_quiet {A} s (fin : res A) f : exists t, exec (fun _ _ => ret tt) s fin f = (fin, f, t).
Proof.
  revert f. induction s as [|[evs|m tbl] s IH]; intros f; [eexists; reflexivity| |].
  - destruct (IH f) as (t & E). cbn [exec]. rewrite E. eauto.
  - destruct (IH f) as (t & E). exists t. cbn [exec]. rewrite bind_ret. exact E.
Qed.

Definition checked (x : xctx) (evs : list event) (ent : entity) : Prop :=
  en_meta ent = x_meta x /\ forall e, In e evs -> exists l, e = EvLint l /\ entity_check ent l.

Lemma call_follows P x tbl : x_fig x <> [] ->
  exists s a b, own_steps x s /\ fst (row_iter tbl) = a ++ b /\ table_figs x a (nests s)
    /\ ((exists e, follows (call_of P x tbl) s (Exn e))
        \/ (b = [] /\ exists evs ent ex, follows (call_of P x tbl) (s ++ SOwn (evs ++ [EvEnt ent]) :: snests ex) (Ok tt)
            /\ extra_of x tbl ex /\ checked x evs ent)).
Proof.
  intros Hx. unfold call_of, table_figs. destruct (ec_kind (x_cls x)) as [k|] eqn:EK.
  - unfold struct_call. destruct (row_iter tbl) as [rows finE] eqn:RI. cbn [fst].
    destruct (rows_follow x rows finE Hx false []) as (s & fin & [NF F] & O & a & b & RE & RF & B).
    exists s, a, b. split; [exact O|]. split; [exact RE|]. split; [exact RF|].
    assert (F' : follows (fun p => struct_loop p x rows finE false []) s fin).
    { split; [exact NF|]. intros p f. rewrite struct_loop_run. apply F. }
    destruct fin as [[gs ex]|e|]; [right | left | destruct (NF eq_refl)].
    2: { exists e. apply (follows_bind_exn (fun p => struct_loop p x rows finE false []) (fun p r => _) _ _ F'). }
    split; [eapply B; reflexivity|].
    set (fs := match k with KBits => List.rev gs | KBytes => gs end).
    destruct (struct_checks x fs false Hx) as (evs & EV & IV).
    assert (EV' : forall f, validate_struct x fs f = (Ok tt, f, evs)).
    { destruct (validate_struct_flagless x fs) as (r & t & E). intros f. rewrite E. rewrite E in EV. congruence. }
    exists evs, (mkEntity (x_meta x) (BStruct k fs)), (match ex with Some n => [n] | None => [] end).
    split; [|split].
    + apply (follows_bind (fun p => struct_loop p x rows finE false []) (fun p r => _) s (gs, ex) _ _ F').
      split; [discriminate|]. intros p f. cbn [exec]. fold fs. unfold bind at 1. rewrite EV'.
      unfold bind, emit. destruct ex as [[m0 t0]|]; cbn [snests map exec fst snd].
      * unfold bind. destruct (p m0 t0 f) as [[[[]|e|] f1] t1]; rewrite ?app_nil_r; cbn [app]; rewrite <- ?app_assoc; reflexivity.
      * cbn. rewrite app_nil_r. reflexivity.
    + destruct ex as [[m0 t0]|]; [|constructor].
      destruct (exec_quiet s (Ok (gs, Some (m0, t0))) false) as (t & E). rewrite <- F in E.
      apply run_rows_extra in E as (y & Hy & _ & E). apply (ex_split x tbl y); [rewrite RI; exact Hy | exact E].
    + split; [reflexivity|]. intros e He. apply IV in He as (l & -> & H). exists l. split; [reflexivity | exact H].
  - unfold value_call. destruct (row_iter tbl) as [rows finE] eqn:RI. cbn [fst].
    destruct (vrows_follow (p_label_overrides P) x rows finE Hx []) as (s & fin & [NF F] & O & a & b & RE & RF & B).
    exists s, a, b. split; [exact O|]. split; [exact RE|]. split; [exact RF|].
    assert (F' : follows (fun p => value_loop p (p_label_overrides P) x rows finE []) s fin).
    { split; [exact NF|]. intros p f. rewrite value_loop_run. apply F. }
    destruct fin as [gs|e|]; [right | left | destruct (NF eq_refl)].
    2: { exists e. apply (follows_bind_exn (fun p => value_loop p (p_label_overrides P) x rows finE []) (fun p r => _) _ _ F'). }
    split; [eapply B; reflexivity|].
    destruct (value_checks x gs false Hx) as (evs & EV & IV).
    assert (EV' : forall f, validate_values x gs f = (Ok tt, f, evs)).
    { destruct (validate_values_flagless x gs) as (r & t & E). intros f. rewrite E. rewrite E in EV. congruence. }
    exists evs, (mkEntity (x_meta x) (BValues gs)), [].
    split; [|split].
    + apply (follows_bind (fun p => value_loop p (p_label_overrides P) x rows finE []) (fun p r => _) s gs _ _ F').
      split; [discriminate|]. intros p f. cbn [exec snests map]. unfold bind at 1. rewrite EV'.
      unfold emit. rewrite app_nil_r. reflexivity.
    + constructor.
    + split; [reflexivity|]. intros e He. apply IV in He as (l & -> & H). exists l. split; [reflexivity | exact H].
Qed.

(** ** Executing steps whose nested figures ignore the flag *)
Definition out (p : meta -> elem -> M unit) (n : meta * elem) : list event := snd (p (fst n) (snd n) false).
Definition outcome (p : meta -> elem -> M unit) (n : meta * elem) : res unit := fst (fst (p (fst n) (snd n) false)).
Definition events_of (p : meta -> elem -> M unit) (s : list step) : list event :=
  flat_map (fun a => match a with SOwn e => e | SNest m tbl => out p (m, tbl) end) s.

Lemma exec_run {A} p s (fin : res A) :
  (forall n f, In n (nests s) -> p (fst n) (snd n) f = p (fst n) (snd n) false) ->
  (Forall (fun n => outcome p n = Ok tt) (nests s)
   /\ forall f, exists f', exec p s fin f = (fin, f', events_of p s)
      /\ ((f = false -> Forall (fun n => snd (fst (p (fst n) (snd n) false)) = false) (nests s) -> f' = false)))
  \/ exists s1 m tbl s2, s = s1 ++ SNest m tbl :: s2
     /\ Forall (fun n => outcome p n = Ok tt) (nests s1) /\ outcome p (m, tbl) <> Ok tt
     /\ forall f, exec p s fin f
        = (match outcome p (m, tbl) with Exn e => Exn e | _ => OutOfFuel end,
           snd (fst (p m tbl false)), events_of p s1 ++ out p (m, tbl)).
Proof.
  intros H. induction s as [|[evs|m tbl] s IH].
  - left. split; [constructor|]. intros f. exists f. split; [reflexivity | auto].
  - destruct IH as [[IH1 IH2] | (s1 & m & tbl & s2 & -> & IH1 & IH2 & IH3)].
    + exact H.
    + left. split; [exact IH1|]. intros f. destruct (IH2 f) as (f' & E & Hf). exists f'. cbn [exec]. rewrite E. split; [reflexivity | exact Hf].
    + right. exists (SOwn evs :: s1), m, tbl, s2. split; [reflexivity|]. split; [exact IH1|]. split; [exact IH2|].
      intros f. cbn [exec]. rewrite IH3. cbn [events_of flat_map]. rewrite app_assoc. reflexivity.
  - destruct (p m tbl false) as [[r fm] tm] eqn:EP.
    assert (EP' : forall f, p m tbl f = (r, fm, tm)).
    { intros f. rewrite <- EP. apply (H (m, tbl)). left. reflexivity. }
    assert (EO : out p (m, tbl) = tm) by (unfold out; cbn; rewrite EP; reflexivity).
    destruct r as [[]|e|].
    + destruct IH as [[IH1 IH2] | (s1 & m' & tbl' & s2 & -> & IH1 & IH2 & IH3)].
      * intros n f Hn. apply H. right. exact Hn.
      * left. split; [constructor; [unfold outcome; cbn; rewrite EP; reflexivity | exact IH1]|].
        intros f. destruct (IH2 fm) as (f' & E & Hf). exists f'. cbn [exec]. rewrite (bind_ok _ _ _ _ _ _ (EP' f)). rewrite E.
        split; [change (events_of p (SNest m tbl :: s)) with (out p (m, tbl) ++ events_of p s); rewrite EO; reflexivity|].
        intros Hf0 HF. inversion HF as [|? ? HF1 HF2]. subst. cbn in HF1. rewrite EP in HF1. cbn in HF1. auto.
      * right. exists (SNest m tbl :: s1), m', tbl', s2. split; [reflexivity|].
        split; [constructor; [unfold outcome; cbn; rewrite EP; reflexivity | exact IH1]|]. split; [exact IH2|].
        intros f. cbn [exec]. rewrite (bind_ok _ _ _ _ _ _ (EP' f)), IH3.
        change (events_of p (SNest m tbl :: s1)) with (out p (m, tbl) ++ events_of p s1). rewrite EO, <- app_assoc. reflexivity.
    + right. exists [], m, tbl, s. split; [reflexivity|]. split; [constructor|]. unfold outcome, out. cbn. rewrite EP. split; [discriminate|].
      intros f. unfold bind. rewrite EP'. reflexivity.
    + right. exists [], m, tbl, s. split; [reflexivity|]. split; [constructor|]. unfold outcome, out. cbn. rewrite EP. split; [discriminate|].
      intros f. unfold bind. rewrite EP'. reflexivity.
Qed.

(** ** One figure *)
Definition with_skip (b : bool) (P : parser) : parser := mkParser b (p_label_overrides P) (p_fig_overrides P).

Lemma with_skip_id P : with_skip (p_skip P) P = P.
Proof. destruct P; reflexivity. Qed.

(** The figure has an extractor of its own which does not recognise its columns. *)
Definition mismatch (P : parser) (m : meta) (tbl : elem) : Prop :=
  exists c hs, lookup_fig (p_fig_overrides P) (m_fig m) = Some c /\ table_headers tbl hs /\ can_apply c hs = None.

Definition lint_T1007 (m : meta) (hs : list str) : lint :=
  mkLint T1007 (m_fig m) (code_msg T1007) None [(utf8 "columns", JList (map JStr hs))].
Definition lint_T1000 (m : meta) : lint :=
  mkLint T1000 (m_fig m) (code_msg T1000) None (match m_title m with Some t => [(utf8 "title", JStr t)] | None => [] end).
Definition header_lints (m : meta) (t : list event) : Prop :=
  forall e, In e t -> exists l, e = EvLint l /\ l_code l = T1006 /\ l_fig l = m_fig m.

Lemma figure_flow P m tbl : m_fig m <> [] ->
  exists t0, header_lints m t0 /\
   ((exists hs, lookup_fig (p_fig_overrides P) (m_fig m) = None /\ table_headers tbl hs /\ unsupported hs
       /\ forall b f, parse_figure (with_skip b P) m tbl f = (Ok tt, false, t0 ++ [EvLint (lint_T1007 m hs)]))
    \/ (mismatch P m tbl /\ forall b f, parse_figure (with_skip b P) m tbl f = (Exn ERuntime, false, t0))
    \/ (exists x, handled P m tbl x /\ forall b f, parse_figure (with_skip b P) m tbl f =
          let '(r, f', t) := catch (call_of P x tbl (parse_figure (with_skip b P))) (on_fig_error (with_skip b P) m) false in
          (r, f', t0 ++ t))).
Proof.
  intros Hf.
  destruct (extract_tbl_headers (m_fig m) tbl false) as [[r f'] t0] eqn:EH.
  destruct (headers_spec _ _ _ _ _ _ Hf EH) as (hs & -> & -> & TH & HL).
  exists t0. split.
  { rewrite Forall_forall in HL. intros e He. destruct (HL e He) as (l & H). exists l. tauto. }
  assert (B : forall (k : list str -> M unit) f,
     (set_flag false ;; hdrs <- extract_tbl_headers (m_fig m) tbl ;; k hdrs) f
     = let '(r, f', t) := k hs false in (r, f', t0 ++ t)).
  { intros k f. erewrite bind_ok by reflexivity. rewrite (bind_ok _ _ _ _ _ _ EH).
    destruct (k hs false) as [[r f'] t]. reflexivity. }
  assert (C : forall c mp, can_apply c hs = Some mp -> chosen P (m_fig m) hs c ->
     exists x, handled P m tbl x /\ forall b, figure_body (with_skip b P) m tbl c hs mp
        = catch (call_of P x tbl (parse_figure (with_skip b P))) (on_fig_error (with_skip b P) m)).
  { intros c mp CA CH. destruct (can_apply_cols c hs mp CA) as (I1 & I2 & I3).
    destruct (proj1 (col_index_last hs (mp_key mp) 0 None) I1) as (k & Ek & Lk).
    destruct (proj1 (col_index_last hs (mp_label mp) 0 None) I2) as (l & El & Ll).
    destruct (proj1 (col_index_last hs (mp_content mp) 0 None) I3) as (d & Ed & Ld).
    exists (mkX c m k l d). split.
    - split; [reflexivity|]. exists hs. split; [exact TH|]. split; [exact CH|]. cbn. eapply uses_columns_of; eassumption.
    - intros b. unfold figure_body, run_extractor. rewrite Ek, El, Ed. reflexivity. }
  destruct (lookup_fig (p_fig_overrides P) (m_fig m)) as [c|] eqn:LK.
  - destruct (can_apply c hs) as [mp|] eqn:CA.
    + right. right. destruct (C c mp CA) as (x & HX & E); [unfold chosen; rewrite LK; reflexivity|].
      exists x. split; [exact HX|]. intros b f. rewrite parse_figure_unfold, B. cbn [with_skip p_fig_overrides].
      rewrite LK, CA, E. reflexivity.
    + right. left. split; [exists c, hs; auto|]. intros b f. rewrite parse_figure_unfold, B. cbn [with_skip p_fig_overrides].
      rewrite LK, CA. unfold throw. rewrite app_nil_r. reflexivity.
  - destruct (select_extractor extractors hs) as [[c mp]|] eqn:SE.
    + right. right. pose proof SE as SE'. apply select_chosen in SE' as [S1 S2].
      destruct (C c mp S2) as (x & HX & E); [unfold chosen; rewrite LK; exact S1|].
      exists x. split; [exact HX|]. intros b f. rewrite parse_figure_unfold, B. cbn [with_skip p_fig_overrides].
      rewrite LK, SE, E. reflexivity.
    + left. exists hs. split; [reflexivity|]. split; [exact TH|].
      split; [apply (proj1 (proj2 (proj2 (proj2 (C11_choice hs))))); exact SE|].
      intros b f. rewrite parse_figure_unfold, B. cbn [with_skip p_fig_overrides].
      rewrite LK, SE, add_issue_tbl; [reflexivity | exact Hf | reflexivity].
Qed.

(** The flag a figure starts with does not matter. *)
Lemma figure_flag P m tbl f : m_fig m <> [] -> parse_figure P m tbl f = parse_figure P m tbl false.
Proof.
  intros Hm. rewrite <- (with_skip_id P). destruct (figure_flow P m tbl Hm) as (t0 & _ & [(hs & _ & _ & _ & E) | [(_ & E) | (x & _ & E)]]);
    rewrite (E _ f), (E _ false); reflexivity.
Qed.

(** The handler. *)
Lemma handler_run P m e f : m_fig m <> [] ->
  on_fig_error P m e f =
  (match m_parent m with
   | Some _ => Exn e
   | None => if p_skip P then Ok tt else Exn e
   end, true, if f then [] else [EvLint (lint_T1000 m)]).
Proof.
  intros Hm. unfold on_fig_error, bind, get_flag. destruct f.
  - cbn. destruct (m_parent m); [reflexivity|]. destruct (p_skip P); reflexivity.
  - unfold set_flag. rewrite add_issue_tbl; [|exact Hm | reflexivity].
    destruct (m_parent m); [reflexivity|]. destruct (p_skip P); reflexivity.
Qed.

(** ** Nested figures: names and sizes *)
Lemma row_figs_nested x dyn y figs : row_figs x dyn y figs ->
  Forall (fun n => (exists key, fst n = sub_meta (x_fig x) key) /\ exists td, In td (children t_td (y_row y)) /\ In (snd n) (children t_table td)) figs.
Proof.
  intros [(k & c & l & rg & (_ & RC & _) & _ & _ & _ & _ & ->) | (_ & ->)]; [|constructor].
  apply Forall_forall. intros n Hn. apply in_map_iff in Hn as (sub & <- & Hs). split; [eexists; reflexivity|].
  exists c. split; [eapply nth_error_In, RC | exact Hs].
Qed.
Lemma vrow_figs_nested x y figs : vrow_figs x y figs ->
  Forall (fun n => (exists key, fst n = sub_meta (x_fig x) key) /\ exists td, In td (children t_td (y_row y)) /\ In (snd n) (children t_table td)) figs.
Proof.
  intros [(k & c & (_ & RC) & _ & ->) | (_ & ->)]; [|constructor].
  apply Forall_forall. intros n Hn. apply in_map_iff in Hn as (sub & <- & Hs). split; [eexists; reflexivity|].
  exists c. split; [eapply nth_error_In, RC | exact Hs].
Qed.
Definition nested_ok (x : xctx) (tbl : elem) (n : meta * elem) : Prop :=
  (exists key, fst n = sub_meta (x_fig x) key) /\ (esize (snd n) < esize tbl)%nat.
Lemma table_figs_nested x tbl rows figs :
  table_figs x rows figs -> (forall y, In y rows -> In y (fst (row_iter tbl))) -> Forall (nested_ok x tbl) figs.
Proof.
  assert (K : forall y, In y (fst (row_iter tbl)) -> forall figs,
    Forall (fun n => (exists key, fst n = sub_meta (x_fig x) key) /\ exists td, In td (children t_td (y_row y)) /\ In (snd n) (children t_table td)) figs ->
    Forall (nested_ok x tbl) figs).
  { intros y Hy fs. apply Forall_impl. intros n [N1 (td & N2 & N3)]. split; [exact N1|]. eapply row_iter_cells; eassumption. }
  unfold table_figs. destruct (ec_kind (x_cls x)) as [k|].
  - generalize false. intros dyn H. induction H as [d | d y rest fs _ _ IH | d y rest a b _ _ RF _ IH | d y rest _ _]; intros I; try constructor.
    + apply IH. intros; apply I; right; assumption.
    + apply Forall_app. split; [|apply IH; intros; apply I; right; assumption].
      apply (K y); [apply I; left; reflexivity | eapply row_figs_nested, RF].
  - intros H. induction H as [| y rest fs _ _ IH | y rest a b _ _ RF _ IH | y rest _ _]; intros I; try constructor.
    + apply IH. intros; apply I; right; assumption.
    + apply Forall_app. split; [|apply IH; intros; apply I; right; assumption].
      apply (K y); [apply I; left; reflexivity | eapply vrow_figs_nested, RF].
Qed.

Lemma sub_meta_fig fig key : m_fig (sub_meta fig key) <> [].
Proof. unfold sub_meta. cbn. destruct fig; discriminate. Qed.
