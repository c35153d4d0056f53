(** Proofs for C80: figures, with exactly what they report. *)
From Coq Require Import NArith ZArith List Bool String Lia ZifyBool ZifyN.
From Verif Require Import PyTables PyStr PyStrFacts Regex Regexes Xml Json Lint RowIter Helpers Extract Document
  RegexFacts MFacts SpecText SpecFields SpecLabel SpecHeader SpecRows SpecTable SpecDoc SpecRun SpecReads SpecEnd SpecOut SpecIter IterProofs ReadForms
  RangeProofs LabelProofs ValidateProofs RowProofs HeaderProofs TableProofs SizeProofs Prop_Label Prop_Range Prop_Header DocProofs DocFlow DocRuns
  Prop_Table Prop_Doc ReadProofs ReadFigs EndProofs OutProofs SpecNames NameProofs CellRead.
Import ListNotations.
Local Open Scope list_scope.
Local Open Scope N_scope.
Local Open Scope m_scope.

(** ** The checks *)
Lemma dup_told x before f : dup_events x before f = map EvLint (lints_of (dup_events x before f)).
Proof. unfold dup_events. destruct (_ && _); reflexivity. Qed.
Lemma pair_told x p f : pair_events x p f = map EvLint (lints_of (pair_events x p f)).
Proof.
  unfold pair_events. destruct (field_range p) as [[? ?|? ?|?]|]; try reflexivity. destruct (field_range f) as [[? ?|? ?|?]|]; try reflexivity.
  destruct (_ <=? _)%Z; [reflexivity|]. destruct (_ <? _)%Z; reflexivity.
Qed.
Lemma struct_told x fs : forall p before,
  expected_struct x (p :: before) p fs = map EvLint (flat_map (field_entries (x_fig x)) (with_earlier (rev (p :: before)) fs)).
Proof.
  induction fs as [|f fs IH]; intros p before; [reflexivity|]. cbn [expected_struct with_earlier flat_map].
  rewrite IH, map_app. change (rev (f :: p :: before)) with (rev (p :: before) ++ [f]). rewrite app_assoc. f_equal.
  rewrite (dup_told x), (pair_told x), dup_events_codes, pair_events_codes, <- map_app. f_equal. unfold field_entries. cbn [fst snd].
  rewrite rev_involutive. f_equal. unfold repeated_label. rewrite existsb_rev. reflexivity.
Qed.
Lemma vdup_told x before f : vdup_events x before f = map EvLint (lints_of (vdup_events x before f)).
Proof. unfold vdup_events. destruct (smem _ _); [reflexivity|]. destruct (existsb _ _), (existsb _ _); reflexivity. Qed.
Lemma values_told x fs : forall before,
  expected_values x before fs = map EvLint (flat_map (vfield_entries (x_fig x)) (with_earlier (rev before) fs)).
Proof.
  induction fs as [|f fs IH]; intros before; [reflexivity|]. cbn [expected_values with_earlier flat_map].
  rewrite IH, map_app. change (rev (f :: before)) with (rev before ++ [f]). f_equal.
  rewrite (vdup_told x), vdup_events_codes. f_equal. unfold vfield_entries, repeated_vlabel, repeated_value. cbn [fst snd].
  rewrite !existsb_rev. reflexivity.
Qed.
Lemma struct_checked x k fs : x_fig x <> [] ->
  exists cs, (forall f, validate_struct x fs f = (Ok tt, f, map EvLint cs)) /\ checks_told (x_fig x) (BStruct k fs) cs.
Proof.
  intros Hx. destruct (out_of_order_dec fs) as [O|O].
  - exists [mkLint T1004 (x_fig x) (code_msg T1004) None []]. split; [|left; auto]. intros f. apply (validate_struct_bad x fs f Hx O).
  - exists (flat_map (field_entries (x_fig x)) (with_earlier [] fs)). split; [|right; auto]. intros f. rewrite (validate_struct_good x fs f Hx O).
    do 2 f_equal. destruct fs as [|f0 r]; [reflexivity|]. cbn [expected_all with_earlier flat_map]. rewrite struct_told.
    replace (field_entries (x_fig x) ([], f0)) with (@nil lint); [reflexivity|]. unfold field_entries, repeated_label. cbn [existsb fst snd rev]. rewrite andb_false_r. reflexivity.
Qed.
Lemma values_checked x fs : x_fig x <> [] ->
  exists cs, (forall f, validate_values x fs f = (Ok tt, f, map EvLint cs)) /\ checks_told (x_fig x) (BValues fs) cs.
Proof.
  intros Hx. exists (flat_map (vfield_entries (x_fig x)) (with_earlier [] fs)). split; [|reflexivity].
  intros f. rewrite (validate_values_spec x fs f Hx), values_told. reflexivity.
Qed.

(** ** A whole table *)
Definition none_last (x : xctx) (rows : list yrow) : Prop := forall z, In z rows -> data_row z -> ~ last_row x z.
Inductive call_result (P : parser) (x : xctx) (tbl : elem) : Prop :=
| cr_table its ex b cs :
    follows (call_of P x tbl) (steps_of its ++ SOwn (map EvLint cs ++ [EvEnt (mkEntity (x_meta x) b)]) :: snests (match ex with Some n => [n] | None => [] end)) (Ok tt) ->
    table_items P x (fst (row_iter tbl)) its ex -> comes_to_end x tbl -> table_gives P x tbl b -> checks_told (x_fig x) b cs ->
    call_result P x tbl
| cr_row its a y b ls e :
    follows (call_of P x tbl) (steps_of (its ++ map Entry ls)) (Exn e) ->
    fst (row_iter tbl) = a ++ y :: b -> none_last x a -> table_items P x a its None -> failing_row P x a y ls ->
    call_result P x tbl
| cr_spans its e :
    follows (call_of P x tbl) (steps_of its) (Exn e) -> snd (row_iter tbl) = Some e -> none_last x (fst (row_iter tbl)) ->
    table_items P x (fst (row_iter tbl)) its None -> call_result P x tbl.

Lemma call_told P x tbl : x_fig x <> [] -> call_result P x tbl.
Proof.
  intros Hx. destruct (ec_kind (x_cls x)) as [k|] eqn:EK.
  - assert (CO : forall p, call_of P x tbl p = struct_call p x k tbl) by (intros p; unfold call_of; rewrite EK; reflexivity).
    assert (FX : forall s fin, follows (fun p => struct_call p x k tbl) s fin -> follows (call_of P x tbl) s fin).
    { intros s fin [A B]. split; [exact A|]. intros p f. rewrite CO. apply B. }
    assert (NL : forall rows, none_ends x rows -> none_last x rows) by (intros rows H z I D; unfold last_row; rewrite EK; exact (H z I D)).
    assert (TI : forall rows its ex, rows_items x false rows its ex -> table_items P x rows its ex) by (intros rows its ex H; unfold table_items; rewrite EK; exact H).
    assert (SC : forall p f, struct_call p x k tbl f = (res <- struct_loop p x (fst (row_iter tbl)) (snd (row_iter tbl)) false [] ;;
        let fs := match k with KBits => rev (fst res) | KBytes => fst res end in
        validate_struct x fs ;; emit (EvEnt (mkEntity (x_meta x) (BStruct k fs))) ;;
        match snd res with None => ret tt | Some (m, t) => p m t end) f).
    { intros p f. unfold struct_call. destruct (row_iter tbl) as [rows fin]. apply bind_k. intros [gs ex] g. reflexivity. }
    assert (LP : forall s fin', follows (fun p => run_rows p x (fst (row_iter tbl)) (snd (row_iter tbl)) false []) s fin' ->
       follows (fun p => struct_loop p x (fst (row_iter tbl)) (snd (row_iter tbl)) false []) s fin').
    { intros s fin' [A B]. split; [exact A|]. intros p f. rewrite struct_loop_run. apply B. }
    assert (EXN : forall s e, follows (fun p => run_rows p x (fst (row_iter tbl)) (snd (row_iter tbl)) false []) s (Exn e) -> follows (call_of P x tbl) s (Exn e)).
    { intros s e F. apply FX. apply LP in F. apply (follows_bind_exn _ (fun p res =>
        let fs := match k with KBits => rev (fst res) | KBytes => fst res end in
        validate_struct x fs ;; emit (EvEnt (mkEntity (x_meta x) (BStruct k fs))) ;;
        match snd res with None => ret tt | Some (m, t) => p m t end)) in F. destruct F as [A B]. split; [exact A|]. intros p f. rewrite SC. apply B. }
    destruct (rows_told x (snd (row_iter tbl)) Hx (fst (row_iter tbl)) false [])
      as [(its & gs & ex & F & I & G & EN) | [(its & a & y & b & e & F & E & N & D & RF & I) | (its & e & F & FE & N & I)]].
    + set (fs := match k with KBits => rev gs | KBytes => gs end).
      destruct (struct_checked x k fs Hx) as (cs & V & CK).
      apply (cr_table P x tbl its ex (BStruct k fs) cs); [| apply TI, I | | | exact CK].
      * apply FX. apply LP in F. apply (follows_bind _ (fun p res =>
          let fs := match k with KBits => rev (fst res) | KBytes => fst res end in
          validate_struct x fs ;; emit (EvEnt (mkEntity (x_meta x) (BStruct k fs))) ;;
          match snd res with None => ret tt | Some (m, t) => p m t end) _ _ (SOwn (map EvLint cs ++ [EvEnt (mkEntity (x_meta x) (BStruct k fs))]) :: snests (match ex with Some n => [n] | None => [] end)) (Ok tt)) in F.
        -- destruct F as [A B]. split; [exact A|]. intros p f. rewrite SC. apply B.
        -- split; [discriminate|]. intros p f. cbv zeta. cbn [fst snd app exec]. fold fs. unfold bind at 1. rewrite V.
           unfold bind, emit. destruct ex as [[m0 t0]|]; cbn [snests map exec fst snd].
           ++ unfold bind. destruct (p m0 t0 f) as [[[[]|e|] f1] t1]; rewrite ?app_nil_r; cbn [app]; rewrite <- ?app_assoc; reflexivity.
           ++ cbn. rewrite app_nil_r. reflexivity.
      * apply ends_form. unfold last_row. rewrite EK. destruct EN as [EN|(z & J)]; [left; exact EN | right; exists z; exact J].
      * apply gives_form. split; [exact EK|]. exists gs. split; [exact G | reflexivity].
    + apply (cr_row P x tbl its a y b [] e); [rewrite app_nil_r; apply EXN, F | exact E | apply NL, N | apply TI, I |].
      split; [exact D|]. rewrite EK. split; [exact RF | reflexivity].
    + apply (cr_spans P x tbl its e); [apply EXN, F | exact FE | apply NL, N | apply TI, I].
  - assert (CO : forall p, call_of P x tbl p = value_call p (p_label_overrides P) x tbl) by (intros p; unfold call_of; rewrite EK; reflexivity).
    assert (NL : forall rows, vnone_ends x rows -> none_last x rows) by (intros rows H z I D; unfold last_row; rewrite EK; exact (H z I D)).
    assert (TI : forall rows its, vrows_items (p_label_overrides P) x rows its -> table_items P x rows its None) by (intros rows its H; unfold table_items; rewrite EK; auto).
    assert (SC : forall p, value_call p (p_label_overrides P) x tbl = (fields <- value_loop p (p_label_overrides P) x (fst (row_iter tbl)) (snd (row_iter tbl)) [] ;;
        validate_values x fields ;; emit (EvEnt (mkEntity (x_meta x) (BValues fields))))).
    { intros p. unfold value_call. destruct (row_iter tbl) as [rows fin]. reflexivity. }
    assert (LP : forall s fin', follows (fun p => vrun_rows p (p_label_overrides P) x (fst (row_iter tbl)) (snd (row_iter tbl)) []) s fin' ->
       follows (fun p => value_loop p (p_label_overrides P) x (fst (row_iter tbl)) (snd (row_iter tbl)) []) s fin').
    { intros s fin' [A B]. split; [exact A|]. intros p f. rewrite value_loop_run. apply B. }
    assert (EXN : forall s e, follows (fun p => vrun_rows p (p_label_overrides P) x (fst (row_iter tbl)) (snd (row_iter tbl)) []) s (Exn e) -> follows (call_of P x tbl) s (Exn e)).
    { intros s e F. apply LP in F. apply (follows_bind_exn _ (fun p fields => validate_values x fields ;; emit (EvEnt (mkEntity (x_meta x) (BValues fields))))) in F.
      destruct F as [A B]. split; [exact A|]. intros p f. rewrite CO, SC. apply B. }
    destruct (vrows_told (p_label_overrides P) x (snd (row_iter tbl)) Hx (fst (row_iter tbl)) [])
      as [(its & gs & F & I & G & EN) | [(its & a & y & b & kk & d & e & F & E & N & D & RF & VC & I) | (its & e & F & FE & N & I)]].
    + destruct (values_checked x gs Hx) as (cs & V & CK).
      apply (cr_table P x tbl its None (BValues gs) cs); [| apply TI, I | | | exact CK].
      * apply LP in F. apply (follows_bind _ (fun p fields => validate_values x fields ;; emit (EvEnt (mkEntity (x_meta x) (BValues fields))))
           _ _ (SOwn (map EvLint cs ++ [EvEnt (mkEntity (x_meta x) (BValues gs))]) :: snests []) (Ok tt)) in F.
        -- destruct F as [A B]. split; [exact A|]. intros p f. rewrite CO, SC. apply B.
        -- split; [discriminate|]. intros p f. cbn [app exec snests map]. unfold bind at 1. rewrite V. unfold emit. rewrite app_nil_r. reflexivity.
      * apply ends_form. unfold last_row. rewrite EK. destruct EN as [EN|(z & J)]; [left; exact EN | right; exists z; exact J].
      * apply gives_form. split; [exact EK | exact G].
    + eapply (cr_row P x tbl its a y b _ e); [apply EXN, F | exact E | apply NL, N | apply TI, I |].
      split; [exact D|]. rewrite EK. split; [exact RF|]. exists kk, d. split; [exact VC | reflexivity].
    + apply (cr_spans P x tbl its e); [apply EXN, F | exact FE | apply NL, N | apply TI, I].
Qed.

(** ** Headers *)
Lemma headers_exact fig tbl : fig <> [] ->
  exists hs ls, (forall f, extract_tbl_headers fig tbl f = (Ok hs, f, map EvLint ls)) /\ headers_told fig tbl ls.
Proof.
  intros Hf. unfold headers_told. destruct (children t_tr tbl) as [|tr rest] eqn:T.
  - exists [], []. split; [|reflexivity]. intros f. apply C10_no_rows || (unfold extract_tbl_headers, hdr_cells, nth_child; rewrite T; reflexivity).
  - destruct (C10_headers fig tbl tr rest false Hf T) as (hs & evss & E & _ & F). exists hs.
    assert (K : exists lss, evss = map (map EvLint) lss /\ Forall2 (fun (k : kid) e => exists c, header_form (itertext (fst k)) c /\ header_entries fig c e) (e_kids tr) lss).
    { clear E. induction F as [|k evs ks es (c & HF & HL) F IH]; [exists []; split; [reflexivity | constructor]|].
      destruct IH as (lss & -> & G).
      assert (Q : exists l, evs = map EvLint l /\ header_entries fig c l).
      { destruct HL as [(v & V & ->) | (V & ->)]; [eexists [_] | exists []]; (split; [reflexivity|]); [eapply he_variant; exact V | apply he_plain; exact V]. }
      destruct Q as (l & -> & HE). exists (l :: lss). split; [reflexivity|]. constructor; eauto. }
    destruct K as (lss & -> & G). exists (List.concat lss). split; [|exists lss; auto].
    intros f. rewrite concat_map. rewrite extract_tbl_headers_spec in E |- * by exact Hf. injection E as -> ->. reflexivity.
Qed.

(** ** One figure *)
Lemma figure_flow_told P m tbl : m_fig m <> [] ->
  exists hls, headers_told (m_fig m) tbl hls /\
   ((exists hs, lookup_fig (p_fig_overrides P) (m_fig m) = None /\ table_headers tbl hs /\ unsupported hs
       /\ forall b f, parse_figure (with_skip b P) m tbl f = (Ok tt, false, map EvLint hls ++ [EvLint (no_extractor m hs)]))
    \/ (unrecognised P m tbl /\ forall b f, parse_figure (with_skip b P) m tbl f = (Exn ERuntime, false, map EvLint hls))
    \/ (exists x, handled P m tbl x /\ forall b f, parse_figure (with_skip b P) m tbl f =
          let '(r, f', t) := catch (call_of P x tbl (parse_figure (with_skip b P))) (on_fig_error (with_skip b P) m) false in
          (r, f', map EvLint hls ++ t))).
Proof.
  intros Hf. destruct (headers_exact (m_fig m) tbl Hf) as (hs & hls & EH & HT).
  destruct (headers_spec _ _ _ _ _ _ Hf (EH false)) as (hs' & E1 & _ & TH & _). injection E1 as <-.
  exists hls. split; [exact HT|]. set (t0 := map EvLint hls) in *.
  assert (B : forall (k : list str -> M unit) f,
     (set_flag false ;; hdrs <- extract_tbl_headers (m_fig m) tbl ;; k hdrs) f
     = let '(r, f', t) := k hs false in (r, f', t0 ++ t)).
  { intros k f. erewrite bind_ok by reflexivity. rewrite (bind_ok _ _ _ _ _ _ (EH false)).
    destruct (k hs false) as [[r f'] t]. reflexivity. }
  assert (C : forall c mp, can_apply c hs = Some mp -> chosen P (m_fig m) hs c ->
     exists x, handled P m tbl x /\ forall b, figure_body (with_skip b P) m tbl c hs mp
        = catch (call_of P x tbl (parse_figure (with_skip b P))) (on_fig_error (with_skip b P) m)).
  { intros c mp CA CH. destruct (can_apply_cols c hs mp CA) as (I1 & I2 & I3).
    destruct (proj1 (col_index_last hs (mp_key mp) 0 None) I1) as (k & Ek & Lk).
    destruct (proj1 (col_index_last hs (mp_label mp) 0 None) I2) as (l & El & Ll).
    destruct (proj1 (col_index_last hs (mp_content mp) 0 None) I3) as (d & Ed & Ld).
    exists (mkX c m k l d). split.
    - split; [reflexivity|]. exists hs. split; [exact TH|]. split; [exact CH|]. cbn. eapply uses_columns_of; eassumption.
    - intros b. unfold figure_body, run_extractor. rewrite Ek, El, Ed. reflexivity. }
  destruct (lookup_fig (p_fig_overrides P) (m_fig m)) as [c|] eqn:LK.
  - destruct (can_apply c hs) as [mp|] eqn:CA.
    + right. right. destruct (C c mp CA) as (x & HX & E); [unfold chosen; rewrite LK; reflexivity|].
      exists x. split; [exact HX|]. intros b f. rewrite parse_figure_unfold, B. cbn [with_skip p_fig_overrides].
      rewrite LK, CA, E. reflexivity.
    + right. left. split; [exists c, hs; split; [exact LK | split; [exact TH | exact (proj1 (can_apply_columns _ _) CA)]]|].
      intros b f. rewrite parse_figure_unfold, B. cbn [with_skip p_fig_overrides].
      rewrite LK, CA. unfold throw. rewrite app_nil_r. reflexivity.
  - destruct (select_extractor extractors hs) as [[c mp]|] eqn:SE.
    + right. right. pose proof SE as SE'. apply select_chosen in SE' as [S1 S2].
      destruct (C c mp S2) as (x & HX & E); [unfold chosen; rewrite LK; exact S1|].
      exists x. split; [exact HX|]. intros b f. rewrite parse_figure_unfold, B. cbn [with_skip p_fig_overrides].
      rewrite LK, SE, E. reflexivity.
    + left. exists hs. split; [reflexivity|]. split; [exact TH|].
      split; [apply (proj1 (proj2 (proj2 (proj2 (C11_choice hs))))); exact SE|].
      intros b f. rewrite parse_figure_unfold, B. cbn [with_skip p_fig_overrides].
      rewrite LK, SE, add_issue_tbl; [reflexivity | exact Hf | reflexivity].
Qed.

Definition nested_of (its : list item) : list (meta * elem) := flat_map (fun i => match i with Nested n => [n] | Entry _ => [] end) its.
Lemma nested_of_app a b : nested_of (a ++ b) = nested_of a ++ nested_of b.
Proof. apply flat_map_app. Qed.
Lemma nested_of_entries ls : nested_of (map Entry ls) = [].
Proof. induction ls as [|l ls IH]; [reflexivity | exact IH]. Qed.
Lemma nested_of_nested ns : nested_of (map Nested ns) = ns.
Proof. induction ns as [|n ns IH]; [reflexivity|]. cbn. f_equal. exact IH. Qed.
Lemma nests_steps its : nests (steps_of its) = nested_of its.
Proof. induction its as [|[l|[m t]] its IH]; [reflexivity | exact IH|]. cbn. f_equal. exact IH. Qed.
Lemma ends_with_ends x y ex : ends_with x y ex -> row_ends x y.
Proof. intros [N [((u & E) & _) | (A & B & n & C & _)]]; [eapply re_note; eassumption | eapply re_split; eassumption]. Qed.
Lemma row_items_figs x dyn y its : row_items x dyn y its -> row_figs x dyn y (nested_of its).
Proof.
  intros [k c l r ls RC S1 S2 S3 R _ | k c l r RC SK SP _ | k c l RC SK | NC].
  - left. exists k, c, l, r. rewrite nested_of_app, nested_of_entries, nested_of_nested. auto 8.
  - right. rewrite nested_of_entries. split; [|reflexivity]. intros k' c' l' RC'. destruct (row_cells_fun _ _ _ _ _ _ _ _ RC RC') as (<- & <- & <-). tauto.
  - right. split; [|reflexivity]. intros k' c' l' RC'. destruct (row_cells_fun _ _ _ _ _ _ _ _ RC RC') as (<- & <- & <-). tauto.
  - right. split; [|reflexivity]. intros k' c' l' RC'. destruct (NC _ _ _ RC').
Qed.
Lemma vrow_items_figs ov x y its : vrow_items ov x y its -> vrow_figs x y (nested_of its).
Proof.
  intros [k c VC E | k c l VC E _ | k c s ls VC E _ _ _ | NC].
  - right. split; [|reflexivity]. intros k' c' VC'. destruct (value_cells_fun _ _ _ _ _ _ VC VC') as (<- & <-). exact E.
  - left. exists k, c. split; [exact VC|]. split; [exact E|]. cbn [nested_of flat_map app]. apply nested_of_nested.
  - left. exists k, c. split; [exact VC|]. split; [exact E|]. rewrite nested_of_app, nested_of_entries. apply nested_of_nested.
  - right. split; [|reflexivity]. intros k' c' VC'. destruct (NC _ _ VC').
Qed.
Lemma table_items_figs P x rows its ex : table_items P x rows its ex -> table_figs x rows (nested_of its).
Proof.
  unfold table_items, table_figs. destruct (ec_kind (x_cls x)).
  - generalize false. intros dyn H. induction H as [d | d y rest its ex N _ IH | d y rest a b ex D NE _ RI _ IH | d y rest ex D EW].
    + constructor.
    + apply rf_header; assumption.
    + rewrite nested_of_app. apply rf_row; [exact D | exact NE | apply row_items_figs, RI | exact IH].
    + apply rf_stop; [exact D | eapply ends_with_ends, EW].
  - intros [H _]. induction H as [| y rest its N _ IH | y rest a b D NE RI _ IH | y rest D EW].
    + constructor.
    + apply vf_header; assumption.
    + rewrite nested_of_app. apply vf_row; [exact D | exact NE | eapply vrow_items_figs, RI | exact IH].
    + apply vf_stop; assumption.
Qed.
Lemma table_items_extra P x tbl its m' tbl' : table_items P x (fst (row_iter tbl)) its (Some (m', tbl')) -> extra_of x tbl [(m', tbl')].
Proof.
  unfold table_items. destruct (ec_kind (x_cls x)); [|intros [_ E]; discriminate]. intros H.
  assert (K : exists y, In y (fst (row_iter tbl)) /\ row_err_handler (ec_handler (x_cls x)) y = (PStop, Some (m', tbl'))).
  { remember (Some (m', tbl')) as ex. revert Heqex. generalize dependent false. intros dyn H.
    induction H as [d | d y rest i ex N _ IH | d y rest a b ex D NE NF RI _ IH | d y rest ex D EW]; intros E.
    - discriminate.
    - destruct (IH E) as (z & I & Z). exists z. split; [right; exact I | exact Z].
    - destruct (IH E) as (z & I & Z). exists z. split; [right; exact I | exact Z].
    - exists y. split; [left; reflexivity|]. destruct EW as [_ [(_ & Q) | (_ & _ & n & Q & EQ)]]; [congruence|]. apply splits_iff. exists n. split; [congruence | exact Q]. }
  destruct K as (y & I & Z). eapply ex_split; eassumption.
Qed.

Definition ended (e : ending) (o : res unit * bool * list event) : Prop :=
  match e with
  | Complete => fst (fst o) = Ok tt /\ snd (fst o) = false
  | Reported => (exists x, fst (fst o) = Exn x) /\ snd (fst o) = true
  | Unreported => fst (fst o) = Exn ERuntime /\ snd (fst o) = false
  end.
Lemma steps_split its s1 m tbl s2 : steps_of its = s1 ++ SNest m tbl :: s2 ->
  exists i1 i2, its = i1 ++ Nested (m, tbl) :: i2 /\ s1 = steps_of i1.
Proof.
  revert s1. induction its as [|i its IH]; intros s1 E; [destruct s1; discriminate|].
  destruct s1 as [|a s1]; cbn [steps_of map app] in E; injection E as E0 E1.
  - destruct i as [l|[m' t']]; [discriminate|]. cbn in E0. injection E0 as -> ->. exists [], its. split; reflexivity.
  - destruct (IH _ E1) as (i1 & i2 & -> & ->). exists (i :: i1), i2. split; [reflexivity|]. rewrite <- E0. reflexivity.
Qed.
Lemma events_entries p ls : events_of p (steps_of (map Entry ls)) = map EvLint ls.
Proof. induction ls as [|l ls IH]; [reflexivity|]. cbn. f_equal. exact IH. Qed.

Section FIG.
Variable (P : parser).
Hypothesis TM : tame P.
Let p := parse_figure (with_skip false P).

Lemma items_told its : (forall n, In n (nested_of its) -> exists e, outputs P n e (out p n) /\ ended e (p (fst n) (snd n) false)) ->
  Forall (fun n => outcome p n = Ok tt) (nested_of its) -> item_outputs P its (events_of p (steps_of its)).
Proof.
  induction its as [|[l|[m t]] its IH]; intros H OK; [constructor | |].
  - apply io_entry. apply IH; assumption.
  - cbn [nested_of flat_map app] in H, OK. inversion OK as [|? ? O1 O2]; subst.
    change (events_of p (steps_of (Nested (m, t) :: its))) with (out p (m, t) ++ events_of p (steps_of its)). apply io_nested.
    + destruct (H (m, t)) as (e & O & E); [left; reflexivity|]. unfold outcome in O1. cbn [fst snd] in O1, E. destruct e; cbn [ended] in E; [exact O | |].
      * destruct E as ((x & E) & _). congruence.
      * destruct E as (E & _). congruence.
    + apply IH; [|exact O2]. intros n I. apply H. right. exact I.
Qed.
Lemma not_complete e n : ended e (p (fst n) (snd n) false) -> outcome p n <> Ok tt ->
  e <> Complete /\ exists x, outcome p n = Exn x /\ snd (fst (p (fst n) (snd n) false)) = match e with Reported => true | _ => false end.
Proof.
  unfold outcome. destruct (p (fst n) (snd n) false) as [[r f] t]. destruct e; cbn; intros E N.
  - destruct E as [E _]. congruence.
  - destruct E as [(x & ->) ->]. split; [discriminate | eauto].
  - destruct E as [-> ->]. split; [discriminate | eauto].
Qed.

Lemma figure_told : forall n m tbl, (esize tbl < n)%nat -> m_fig m <> [] ->
  exists e, outputs P (m, tbl) e (out p (m, tbl)) /\ ended e (p m tbl false).
Proof.
  induction n as [|n IH]; intros m tbl Hs Hm; [lia|].
  destruct (figure_flow_told P m tbl Hm) as (hls & HT & [(hs & LK & TH & US & E) | [(UR & E) | (x & HD & E)]]);
    specialize (E false false); fold p in E.
  - exists Complete. unfold out. cbn [fst snd]. rewrite E. split; [|split; reflexivity]. apply ou_columns; assumption.
  - exists Unreported. unfold out. cbn [fst snd]. rewrite E. split; [|split; reflexivity]. apply ou_unrecognised; assumption.
  - assert (HF : x_fig x = m_fig m) by (unfold x_fig; rewrite (proj1 HD); reflexivity).
    assert (Hx : x_fig x <> []) by (rewrite HF; exact Hm).
    assert (NS : forall rows its ex, table_items P x rows its ex -> (forall y, In y rows -> In y (fst (row_iter tbl))) ->
      forall k, In k (nested_of its) -> m_fig (fst k) <> [] /\ exists e, outputs P k e (out p k) /\ ended e (p (fst k) (snd k) false)).
    { intros rows its ex TI IN k K. pose proof (table_figs_nested x tbl _ _ (table_items_figs _ _ _ _ _ TI) IN) as FN.
      rewrite Forall_forall in FN. destruct (FN k K) as [(key & K1) K2].
      assert (MF : m_fig (fst k) <> []) by (rewrite K1; apply sub_meta_fig). split; [exact MF|].
      destruct k as [km kt]. cbn [fst snd] in *. apply IH; [lia | exact MF]. }
    assert (FLG : forall rows its ex, table_items P x rows its ex -> (forall y, In y rows -> In y (fst (row_iter tbl))) ->
      forall k f, In k (nested_of its) -> p (fst k) (snd k) f = p (fst k) (snd k) false).
    { intros rows its ex TI IN k f K. apply figure_flag. exact (proj1 (NS _ _ _ TI IN k K)). }
    assert (FD : forall rows its ex, table_items P x rows its ex -> (forall y, In y rows -> In y (fst (row_iter tbl))) ->
      Forall (fun n => outcome p n = Ok tt) (nested_of its) -> Forall (fun n => snd (fst (p (fst n) (snd n) false)) = false) (nested_of its)).
    { intros rows its ex TI IN OK. rewrite Forall_forall in OK |- *. intros k K. specialize (OK k K).
      destruct (NS _ _ _ TI IN k K) as (_ & e & _ & EE). unfold outcome in OK. destruct e; cbn [ended] in EE; [tauto | | tauto].
      destruct EE as [(z & EE) _]. congruence. }
    (* a nested figure that does not complete *)
    assert (BAD : forall a b its ex i1 m1 tbl1 i2 c, fst (row_iter tbl) = a ++ b -> table_items P x a its ex -> its = i1 ++ Nested (m1, tbl1) :: i2 ->
      Forall (fun n => outcome p n = Ok tt) (nested_of i1) -> outcome p (m1, tbl1) <> Ok tt ->
      c false = (match outcome p (m1, tbl1) with Exn e => Exn e | _ => OutOfFuel end, snd (fst (p m1 tbl1 false)), events_of p (steps_of i1) ++ out p (m1, tbl1)) ->
      p m tbl false = (let '(r, f', t) := catch c (on_fig_error (with_skip false P) m) false in (r, f', map EvLint hls ++ t)) ->
      exists e, outputs P (m, tbl) e (out p (m, tbl)) /\ ended e (p m tbl false)).
    { intros a b its ex i1 m1 tbl1 i2 c RE TI -> O1 O2 EC EP.
      assert (IN : forall y, In y a -> In y (fst (row_iter tbl))) by (intros y I; rewrite RE; apply in_or_app; left; exact I).
      pose proof (NS _ _ _ TI IN) as NS'.
      destruct (NS' (m1, tbl1)) as (_ & e1 & OU & EN); [rewrite nested_of_app; apply in_or_app; right; left; reflexivity|].
      destruct (not_complete _ _ EN O2) as (NC & z & OZ & FZ). cbn [fst snd] in FZ. rewrite OZ, FZ in EC.
      unfold catch in EP. rewrite EC, (handler_run _ _ _ _ Hm) in EP. cbn [p_skip with_skip] in EP.
      exists Reported. unfold out at 1. cbn [fst snd]. rewrite EP. cbn [fst snd ended]. split; [|split; [destruct (m_parent m); eauto | reflexivity]].
      rewrite <- app_assoc.
      replace (if match e1 with Reported => true | _ => false end then [] else [EvLint (lint_T1000 m)]) with (given_up_after m e1) by (destruct e1; [congruence | reflexivity | reflexivity]).
      eapply ou_nested; try (exact (rows_at _ _ RE)); try eassumption. apply items_told; [|exact O1].
      intros k K. apply NS'. rewrite nested_of_app. apply in_or_app. left. exact K. }
    destruct (call_told P x tbl Hx) as [its ex b cs F TI CE TG CK | its a y b ls e F RE NL TI FR | its e F SE NL TI].
    + assert (IN : forall y, In y (fst (row_iter tbl)) -> In y (fst (row_iter tbl))) by auto.
      set (ev := map EvLint cs ++ [EvEnt (mkEntity (x_meta x) b)]) in *.
      assert (CB : forall f, call_of P x tbl p f = bind (exec p (steps_of its) (Ok tt)) (fun _ => exec p (SOwn ev :: snests (match ex with Some n => [n] | None => [] end)) (Ok tt)) f).
      { intros f. rewrite (proj2 F). symmetry. apply exec_bind. reflexivity. }
      destruct (exec_run p (steps_of its) (Ok tt)) as [[D1 D2] | (s1 & m1 & tbl1 & s2 & ES & D1 & D2 & D3)].
      { rewrite nests_steps. exact (FLG _ _ _ TI IN). }
      2: { destruct (steps_split _ _ _ _ _ ES) as (i1 & i2 & EI & ->). rewrite nests_steps in D1.
           eapply (BAD (fst (row_iter tbl)) []); [rewrite app_nil_r; reflexivity | exact TI | exact EI | exact D1 | exact D2 | | exact E].
           rewrite CB. unfold bind. rewrite D3. destruct (outcome p (m1, tbl1)) as [[]|z|]; [congruence | reflexivity | reflexivity]. }
      rewrite nests_steps in D1, D2. destruct (D2 false) as (f' & D3 & D4). rewrite (D4 eq_refl (FD _ _ _ TI IN D1)) in D3.
      assert (IO : item_outputs P its (events_of p (steps_of its))).
      { apply items_told; [|exact D1]. intros k K. exact (proj2 (NS _ _ _ TI IN k K)). }
      rewrite HF in CK. unfold catch in E. rewrite CB in E. unfold bind in E at 1. rewrite D3 in E.
      destruct ex as [[m' tbl']|].
      * pose proof (table_items_extra _ _ _ _ _ _ TI) as EX.
        destruct (extra_meta P m tbl x _ HD EX) as [EX' | (prefix & fig' & title & tbl2 & EH & EX' & Sz)]; [discriminate|].
        injection EX' as EM <-.
        pose proof (handled_override _ _ _ _ _ _ HD EH) as LK.
        assert (F' : m_fig m' <> []).
        { rewrite EM. cbn. destruct (lookup_In _ _ _ LK) as (f0 & LI). exact (proj1 (TM _ _ _ _ LI EH)). }
        destruct (IH m' tbl') as (e' & OU & EN); [lia | exact F' |].
        assert (OUT : outputs P (m, tbl) (after e') (map EvLint hls ++ events_of p (steps_of its) ++ map EvLint cs ++ [EvEnt (mkEntity m b)] ++ out p (m', tbl') ++ given_up_after m e')).
        { eapply ou_split; try eassumption. apply table_rows_ok. }
        assert (OO : out p (m', tbl') = snd (p m' tbl' false)) by reflexivity.
        cbn [exec snests map fst snd] in E. unfold bind in E.
        exists (after e'). unfold out at 1. cbn [fst snd]. rewrite E. clear E.
        destruct (p m' tbl' false) as [[r2 f2] t2]. cbn [snd] in OO. rewrite OO in OUT. cbn [ended fst snd] in EN. destruct e'; cbn [ended fst snd] in EN; cbn [after given_up_after] in OUT |- *.
        -- destruct EN as [-> ->]. split; [|split; reflexivity]. cbn [snd fst]. unfold ev. rewrite (proj1 HD), <- ?app_assoc. rewrite <- ?app_assoc in OUT. exact OUT.
        -- destruct EN as [(z & ->) ->]. rewrite (handler_run _ _ _ _ Hm). cbn [p_skip with_skip ended fst snd]. split; [|split; [destruct (m_parent m); eauto | reflexivity]].
           unfold ev. rewrite (proj1 HD), <- ?app_assoc. rewrite <- ?app_assoc in OUT. exact OUT.
        -- destruct EN as [-> ->]. rewrite (handler_run _ _ _ _ Hm). cbn [p_skip with_skip ended fst snd]. split; [|split; [destruct (m_parent m); eauto | reflexivity]].
           unfold ev. rewrite (proj1 HD), <- ?app_assoc. rewrite <- ?app_assoc in OUT. exact OUT.
      * exists Complete. unfold out. cbn [fst snd]. rewrite E. cbn [exec snests map fst snd]. split; [|split; reflexivity].
        unfold ev. rewrite (proj1 HD), app_nil_r. eapply ou_table; try eassumption. apply table_rows_ok.
    + assert (IN : forall z, In z a -> In z (fst (row_iter tbl))) by (intros z I; rewrite RE; apply in_or_app; left; exact I).
      rewrite steps_app in F.
      assert (NN : nests (steps_of its ++ steps_of (map Entry ls)) = nested_of its) by (rewrite nests_app, !nests_steps, nested_of_entries, app_nil_r; reflexivity).
      destruct (exec_run p (steps_of its ++ steps_of (map Entry ls)) (Exn e : res unit)) as [[D1 D2] | (s1 & m1 & tbl1 & s2 & ES & D1 & D2 & D3)].
      { rewrite NN. exact (FLG _ _ _ TI IN). }
      2: { assert (NL' : ~ exists u v, steps_of (map Entry ls) = u ++ SNest m1 tbl1 :: v).
           { intros (u & v & Z). apply (f_equal nests) in Z. rewrite nests_steps, nested_of_entries, nests_app in Z. cbn in Z. symmetry in Z. apply app_eq_nil in Z as [_ Z]. discriminate. }
           destruct (split_last _ _ _ _ _ _ ES) as [(s3 & ES') | (u & v & _ & EU)]; [|destruct NL'; eauto].
           destruct (steps_split _ _ _ _ _ ES') as (i1 & i2 & EI & ->). rewrite nests_steps in D1.
           eapply (BAD a (y :: b)); [exact RE | exact TI | exact EI | exact D1 | exact D2 | | exact E]. rewrite (proj2 F). apply D3. }
      rewrite NN in D1, D2. destruct (D2 false) as (f' & D3 & D4). rewrite (D4 eq_refl (FD _ _ _ TI IN D1)) in D3.
      assert (IO : item_outputs P its (events_of p (steps_of its))).
      { apply items_told; [|exact D1]. intros k K. exact (proj2 (NS _ _ _ TI IN k K)). }
      unfold catch in E. rewrite (proj2 F), D3, (handler_run _ _ _ _ Hm) in E. cbn [p_skip with_skip] in E.
      exists Reported. unfold out. cbn [fst snd]. rewrite E. cbn [fst snd ended]. split; [|split; [destruct (m_parent m); eauto | reflexivity]].
      rewrite events_of_app, events_entries, <- app_assoc. eapply ou_row; try (exact (rows_at _ _ RE)); eassumption.
    + assert (IN : forall y, In y (fst (row_iter tbl)) -> In y (fst (row_iter tbl))) by auto.
      destruct (exec_run p (steps_of its) (Exn e : res unit)) as [[D1 D2] | (s1 & m1 & tbl1 & s2 & ES & D1 & D2 & D3)].
      { rewrite nests_steps. exact (FLG _ _ _ TI IN). }
      2: { destruct (steps_split _ _ _ _ _ ES) as (i1 & i2 & EI & ->). rewrite nests_steps in D1.
           eapply (BAD (fst (row_iter tbl)) []); [rewrite app_nil_r; reflexivity | exact TI | exact EI | exact D1 | exact D2 | | exact E]. rewrite (proj2 F). apply D3. }
      rewrite nests_steps in D1, D2. destruct (D2 false) as (f' & D3 & D4). rewrite (D4 eq_refl (FD _ _ _ TI IN D1)) in D3.
      assert (IO : item_outputs P its (events_of p (steps_of its))).
      { apply items_told; [|exact D1]. intros k K. exact (proj2 (NS _ _ _ TI IN k K)). }
      unfold catch in E. rewrite (proj2 F), D3, (handler_run _ _ _ _ Hm) in E. cbn [p_skip with_skip] in E.
      exists Reported. unfold out. cbn [fst snd]. rewrite E. cbn [fst snd ended]. split; [|split; [destruct (m_parent m); eauto | reflexivity]].
      eapply ou_spans; try eassumption. eapply rows_failed; eassumption.
Qed.
End FIG.
