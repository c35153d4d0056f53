(** Which messages are logged: proofs for C88. *)
From Coq Require Import NArith ZArith List Bool String Lia Permutation.
From Verif Require Import PyStr PyStrFacts Regex Regexes Xml Json JsonText SpecJson Lint RowIter Helpers Extract Document Output
  MFacts SpecLog SpecHeader SpecTable SpecDoc SpecRun HeaderProofs TableProofs DocProofs DocFlow ReadProofs Messages SpecMsg MsgProofs Prop_Doc.
Import ListNotations.
Local Open Scope list_scope.
Local Open Scope N_scope.

(** ** Computations that report no trouble *)
Definition troubled (l : lint) : bool := code_eqb (l_code l) T1000 || code_eqb (l_code l) T1008.
Definition entries (t : list event) : list lint := filter troubled (lints_of t).
Lemma entries_app a b : entries (a ++ b) = entries a ++ entries b.
Proof. unfold entries. rewrite lints_of_app. apply filter_app. Qed.

Definition quiet {A} (m : M A) : Prop := forall f r f' t, m f = (r, f', t) -> f' = f /\ entries t = [] /\ r <> OutOfFuel.
Lemma quiet_ret {A} (a : A) : quiet (ret a).
Proof. intros f r f' t [= <- <- <-]. repeat split; discriminate. Qed.
Lemma quiet_throw {A} e : quiet (@throw A e).
Proof. intros f r f' t [= <- <- <-]. repeat split; discriminate. Qed.
Lemma quiet_bind {A B} (m : M A) (k : A -> M B) : quiet m -> (forall a, quiet (k a)) -> quiet (bind m k).
Proof.
  intros H K f r f' t. unfold bind. destruct (m f) as [[[a|e|] f1] t1] eqn:Em.
  - destruct (k a f1) as [[r2 f2] t2] eqn:Ek. intros [= <- <- <-].
    destruct (H _ _ _ _ Em) as (-> & E1 & _). destruct (K _ _ _ _ _ Ek) as (-> & E2 & E3).
    split; [reflexivity|]. split; [rewrite entries_app, E1, E2; reflexivity | exact E3].
  - intros [= <- <- <-]. destruct (H _ _ _ _ Em) as (-> & E1 & _). repeat split; [exact E1 | discriminate].
  - destruct (H _ _ _ _ Em) as (_ & _ & E1). exfalso. apply E1. reflexivity.
Qed.
Lemma quiet_add c fig row ctx : c <> T1000 -> c <> T1008 -> quiet (add_issue c fig row ctx).
Proof.
  intros H1 H2 f r f' t. unfold add_issue. destruct (seqb fig []); [apply quiet_throw|]. destruct (_ && _); [apply quiet_throw|].
  intros [= <- <- <-]. split; [reflexivity|]. split; [|discriminate]. unfold entries. cbn [lints_of flat_map app filter].
  unfold troubled. cbn [l_code]. destruct c; try reflexivity; congruence.
Qed.
Lemma quiet_emit e : quiet (emit (EvEnt e)).
Proof. intros f r f' t [= <- <- <-]. repeat split; discriminate. Qed.
Ltac quiet_step :=
  match goal with
  | |- quiet (ret _) => apply quiet_ret
  | |- quiet (throw _) => apply quiet_throw
  | |- quiet (issue _ _ _ _) => apply quiet_add; discriminate
  | |- quiet (add_issue _ _ _ _) => apply quiet_add; discriminate
  | |- quiet (bind _ _) => apply quiet_bind; [|intros ?]
  | |- quiet (if ?b then _ else _) => destruct b
  | |- quiet (match ?b with _ => _ end) => destruct b
  end.
Lemma quiet_range x t k : quiet (parse_range x t k).
Proof. unfold parse_range. repeat quiet_step. Qed.
Lemma quiet_dynamic x t : quiet (parse_dynamic_range x t).
Proof. unfold parse_dynamic_range. repeat quiet_step. Qed.
Lemma quiet_validate_label l fig k : quiet (validate_label l fig k).
Proof. unfold validate_label. repeat quiet_step. Qed.
Lemma quiet_label x t k : quiet (parse_label x t k).
Proof.
  unfold parse_label. apply quiet_bind.
  - destruct (Nat.eqb _ _); [unfold extract_label_same | unfold extract_label_separate]; repeat quiet_step.
  - intros l. apply quiet_bind; [apply quiet_validate_label|]. intros. apply quiet_ret.
Qed.
Lemma quiet_value_label x row v c : quiet (extract_value_label x row v c).
Proof.
  unfold extract_value_label, finish_value_label, extract_label_dedicated.
  repeat first [apply quiet_validate_label | quiet_step].
Qed.
Lemma quiet_pairs x fs : forall labels prev, quiet (pair_loop x labels prev fs).
Proof. induction fs as [|f fs IH]; intros labels prev; cbn [pair_loop]; repeat first [apply IH | quiet_step]. Qed.
Lemma quiet_struct x fs : quiet (validate_struct x fs).
Proof. unfold validate_struct. repeat first [apply quiet_pairs | quiet_step]. Qed.
Lemma quiet_values_loop x fs : forall labels values, quiet (values_loop x labels values fs).
Proof. induction fs as [|f fs IH]; intros labels values; cbn [values_loop]; repeat first [apply IH | quiet_step]. Qed.
Lemma quiet_values x fs : quiet (validate_values x fs).
Proof. unfold validate_values. repeat first [apply quiet_values_loop | quiet_step]. Qed.
Lemma quiet_headers fig tbl : quiet (extract_tbl_headers fig tbl).
Proof.
  unfold extract_tbl_headers. induction (hdr_cells tbl) as [|c cs IH]; cbn [mapM]; [apply quiet_ret|].
  apply quiet_bind; [unfold normalize_hdr; repeat quiet_step|]. intros. apply quiet_bind; [exact IH|]. intros. apply quiet_ret.
Qed.

(** ** Reports *)
Lemma all_reports_app ts ts' gs gs' : all_reports ts gs -> all_reports ts' gs' -> all_reports (ts ++ ts') (gs ++ gs').
Proof. intros H H'. induction H as [|t ts g gs R H IH]; [exact H'|]. cbn. rewrite <- app_assoc. constructor; assumption. Qed.
Lemma all_reports_one t gs : reports t gs -> all_reports [t] gs.
Proof. intros H. rewrite <- (app_nil_r gs). constructor; [exact H | constructor]. Qed.
Lemma all_reports_split ts ts' gs : all_reports (ts ++ ts') gs -> exists a b, gs = a ++ b /\ all_reports ts a /\ all_reports ts' b.
Proof.
  revert gs. induction ts as [|t ts IH]; intros gs H; cbn in H.
  - exists [], gs. repeat split; [constructor | exact H].
  - inversion H as [|t0 ts0 g gs' R H']; subst. destruct (IH _ H') as (a & b & -> & A & B).
    exists (g ++ a), b. split; [apply app_assoc|]. split; [constructor; assumption | exact B].
Qed.
Lemma all_reports_one_inv t gs : all_reports [t] gs -> reports t gs.
Proof. intros H. inversion H as [|t0 ts0 g gs' R H']; subst. inversion H'; subst. rewrite app_nil_r. exact R. Qed.
Lemma outermost_cons m m1 ms : outermost m (m1 :: ms) = outermost m1 ms.
Proof. unfold outermost. revert m m1. induction ms as [|a ms IH]; intros m m1; [reflexivity|]. rewrite (IH m1 a). exact (IH m a). Qed.
Lemma chain_snoc P m ms m' : chain P m ms -> directly_in P (outermost m ms) m' -> chain P m (ms ++ [m']).
Proof.
  intros C. induction C as [m|m m1 ms D C IH]; intros H; cbn; [apply ch_in; [exact H | constructor]|].
  apply ch_in; [exact D|]. apply IH. rewrite outermost_cons in H. exact H.
Qed.
Lemma outermost_snoc m ms m' : outermost m (ms ++ [m']) = m'.
Proof. unfold outermost. apply last_last. Qed.

(** [t] reports the troubles [ts]; [rest]: messages that are not part of any yet. *)
Definition told (t : list act) (ts : list trouble) (rest : list message) : Prop :=
  exists gs, all_reports ts gs /\ said t = gs ++ rest /\ Forall2 entry_of ts (entries (done t)).
Lemma told_app t t' ts ts' rest : told t ts [] -> told t' ts' rest -> told (t ++ t') (ts ++ ts') rest.
Proof.
  intros (gs & A & B & C) (gs' & A' & B' & C'). exists (gs ++ gs'). split; [apply all_reports_app; assumption|].
  split; [rewrite said_app, B, B', app_nil_r, app_assoc; reflexivity|].
  rewrite done_app, entries_app. apply Forall2_app; assumption.
Qed.
Lemma told_did t : entries t = [] -> told (map Did t) [] [].
Proof. intros H. exists []. rewrite said_did, done_did, H. repeat constructor. Qed.
Lemma told_nil : told [] [] [].
Proof. apply (told_did []). reflexivity. Qed.
Lemma told_app' t t' ts : told t [] [] -> told t' ts [] -> told (t ++ t') ts [].
Proof. apply (told_app t t' [] ts []). Qed.

Section Flow.
Variable printable : N -> bool.
Variables spec revision : str.
Variable qualname : ecls -> str.
Variable P : parser.
Hypothesis TM : tame P.

Lemma about_context m c l e s x : about m (mkMessage l s (figure_context spec revision qualname m c ++ x) e).
Proof.
  exists (JObj (meta_json m)). split; [left; reflexivity|]. exists (meta_json m). split; [reflexivity | apply Permutation_refl].
Qed.
Lemma about_context' m c l e s : about m (mkMessage l s (figure_context spec revision qualname m c) e).
Proof. rewrite <- (app_nil_r (figure_context _ _ _ _ _)). apply about_context. Qed.
Lemma failed_ok m c : for_user "failed parsing figure " m (failed_msg printable spec revision qualname m c).
Proof.
  split; [reflexivity|]. split; [reflexivity|]. split; [apply about_context'|].
  exists (repr_meta printable m). split; [reflexivity | apply repr_meta_ok].
Qed.
Lemma in_ok m c : for_user "  in " m (in_msg printable spec revision qualname m c).
Proof.
  split; [reflexivity|]. split; [reflexivity|]. split; [apply about_context'|].
  exists (repr_meta printable m). split; [reflexivity | apply repr_meta_ok].
Qed.
Lemma exception_ok m c e : for_log e m (exception_msg spec revision qualname m c e).
Proof. split; [reflexivity|]. split; [reflexivity | apply about_context']. Qed.
Lemma row_ok m c row e : for_log e m (row_msg spec revision qualname m c row e).
Proof. split; [reflexivity|]. split; [reflexivity | apply about_context]. Qed.

(** ** Reading a figure *)

(** An exception of a nested figure, reported already. *)
Definition passed (m : meta) (e : exn) (t : list act) : Prop :=
  exists ts row m0 ms, told t (ts ++ [Failure row m0 e ms]) [] /\ Forall (nested P) ts /\ chain P m0 ms
    /\ directly_in P (outermost m0 ms) m.
(** An exception of its own: nothing is reported yet, but for the row. *)
Definition fresh (m : meta) (e : exn) (t : list act) : Prop :=
  exists ts rest, told t ts rest /\ Forall (nested P) ts
    /\ (rest = [] \/ exists g row, rest = [g] /\ for_log e m g /\ In (utf8 "range", JStr row) (g_extra g)).
Definition fine (t : list act) : Prop := exists ts, told t ts [] /\ Forall (nested P) ts.
Lemma fine_app t t' : fine t -> fine t' -> fine (t ++ t').
Proof.
  intros (ts & A & B) (ts' & A' & B'). exists (ts ++ ts'). split; [apply told_app; assumption | apply Forall_app; auto].
Qed.
Lemma passed_app m e t t' : fine t -> passed m e t' -> passed m e (t ++ t').
Proof.
  intros (ts & A & B) (ts' & row & m0 & ms & A' & B' & C). exists (ts ++ ts'), row, m0, ms.
  split; [rewrite <- app_assoc; apply told_app; assumption|]. split; [apply Forall_app; auto | exact C].
Qed.
Lemma fresh_app m e t t' : fine t -> fresh m e t' -> fresh m e (t ++ t').
Proof.
  intros (ts & A & B) (ts' & rest & A' & B' & C). exists (ts ++ ts'), rest.
  split; [apply told_app; assumption|]. split; [apply Forall_app; auto | exact C].
Qed.

(** Reading part of figure [m], the flag being clear; [clear]: it is clear afterwards. *)
Definition reads {A} (clear : bool) (m : meta) (l : L A) : Prop :=
  forall r f t, l false = (r, f, t) ->
    match r with
    | Ok _ => fine t /\ (clear = true -> f = false)
    | Exn e => (f = true /\ passed m e t) \/ (f = false /\ fresh m e t)
    | OutOfFuel => True
    end.
Lemma reads_weaken {A} b m (l : L A) : reads true m l -> reads b m l.
Proof. intros H r f t E. specialize (H _ _ _ E). destruct r; [|exact H | exact H]. destruct H as [H1 H2]. split; auto. Qed.
Lemma reads_bind {A B} b m (l : L A) (k : A -> L B) : reads true m l -> (forall a, reads b m (k a)) -> reads b m (lbind l k).
Proof.
  intros H K r f t. unfold lbind. destruct (l false) as [[[a|e|] f1] t1] eqn:E1; specialize (H _ _ _ E1); cbn in H.
  - destruct H as [F1 F2]. rewrite (F2 eq_refl). destruct (k a false) as [[r2 f2] t2] eqn:E2. intros [= <- <- <-].
    specialize (K a _ _ _ E2). destruct r2 as [b2|e|]; [|destruct K as [[K1 K2]|[K1 K2]]|exact Logic.I].
    + destruct K as [K1 K2]. split; [apply fine_app; assumption | exact K2].
    + left. split; [exact K1 | apply passed_app; assumption].
    + right. split; [exact K1 | apply fresh_app; assumption].
  - intros [= <- <- <-]. exact H.
  - intros [= <- <- <-]. exact Logic.I.
Qed.
Lemma fine_nil : fine [].
Proof. exists []. split; [apply told_nil | constructor]. Qed.
Lemma fresh_nil m e : fresh m e [].
Proof. exists [], []. split; [apply told_nil|]. split; [constructor | left; reflexivity]. Qed.
Lemma reads_ret {A} b m (a : A) : reads b m (lret a).
Proof. intros r f t [= <- <- <-]. split; [apply fine_nil | reflexivity]. Qed.
Lemma reads_throw {A} b m e : reads b m (@lthrow A e).
Proof. intros r f t [= <- <- <-]. right. split; [reflexivity | apply fresh_nil]. Qed.
Lemma reads_lift {A} b m (q : M A) : quiet q -> reads b m (lift q).
Proof.
  intros H r f t. unfold lift. destruct (q false) as [[r1 f1] t1] eqn:E. intros [= <- <- <-].
  destruct (H _ _ _ _ E) as (-> & E1 & E2). assert (T : told (map Did t1) [] []) by (apply told_did, E1).
  destruct r1 as [a|e|]; [|right|].
  - split; [exists []; split; [exact T | constructor] | reflexivity].
  - split; [reflexivity|]. exists [], []. split; [exact T|]. split; [constructor | left; reflexivity].
  - exact Logic.I.
Qed.
Lemma reads_iter {A} m (p : A -> L unit) l : (forall a, reads true m (p a)) -> reads true m (literM p l).
Proof. intros H. induction l as [|a l IH]; cbn [literM]; [apply reads_ret|]. apply reads_bind; [apply H | intros _; exact IH]. Qed.
Lemma reads_row {A} b m c row : reads b m (lbind (say (row_msg spec revision qualname m c row EXPath)) (fun _ => @lthrow A EXPath)).
Proof.
  intros r f t [= <- <- <-]. right. split; [reflexivity|]. exists [], [row_msg spec revision qualname m c row EXPath].
  split; [exists []; repeat constructor|]. split; [constructor|]. right.
  exists (row_msg spec revision qualname m c row EXPath), (lower (to_text row)). split; [reflexivity|]. split; [apply row_ok|].
  cbn [row_msg g_extra]. apply in_or_app. right. left. reflexivity.
Qed.
Lemma reads_label b x t k : x_fig x <> [] -> reads b (x_meta x) (log_parse_label spec revision qualname x t k).
Proof.
  intros F. intros r f t0 E. unfold log_parse_label, lcatch in E.
  pose proof (reads_lift b (x_meta x) _ (quiet_label x t k)) as H. unfold reads in H.
  destruct (lift (parse_label x t k) false) as [[[a|e|] f1] t1] eqn:E1.
  - injection E as <- <- <-. exact (H _ _ _ eq_refl).
  - exfalso. unfold lift in E1. destruct (parse_label x t k false) as [[r2 f2] t2] eqn:E2. injection E1 as -> -> _.
    exact (label_exn _ _ _ _ _ _ _ F E2).
  - injection E as <- <- <-. exact (H _ _ _ eq_refl).
Qed.

(** Figures have ids; those of nested ones have a "_" in them. *)
Definition has_id (m : meta) : Prop := m_fig m <> [] /\ (m_parent m <> None -> In 95 (m_fig m)).
(** What is known of processing a whole figure, whatever the flag was. *)
Definition figures_ok (p : meta -> elem -> L unit) : Prop :=
  forall m tbl f r f' t, has_id m -> p m tbl f = (r, f', t) ->
    match r with
    | Ok _ => fine t /\ (m_parent m <> None -> f' = false)
    | Exn e =>
        (f' = true /\ exists ts row m0 ms, told t (ts ++ [Failure row m0 e ms]) [] /\ Forall (nested P) ts
           /\ chain P m0 ms /\ outermost m0 ms = m)
        \/ (f' = false /\ fine t /\ unrecognised P m tbl)
    | OutOfFuel => True
    end.
Lemma reads_figure b p m m' tbl : figures_ok p -> has_id m' -> directly_in P m' m ->
  (b = true -> m_parent m' <> None) -> reads b m (p m' tbl).
Proof.
  intros H F D B r f t E. specialize (H _ _ _ _ _ _ F E). destruct r as [a|e|]; [| |exact Logic.I].
  - destruct H as [H1 H2]. split; [exact H1 | intros ->; apply H2, B; reflexivity].
  - destruct H as [(-> & ts & row & m0 & ms & T & N & C & O)|(-> & (ts & T & N) & _)].
    + left. split; [reflexivity|]. exists ts, row, m0, ms. rewrite O. auto.
    + right. split; [reflexivity|]. exists ts, []. auto.
Qed.
Lemma sub_named fig key : has_id (mkMeta None (fig ++ [95] ++ key) (Some fig)).
Proof.
  split; cbn [m_fig]; [destruct fig; discriminate|]. intros _. apply in_or_app. right. left. reflexivity.
Qed.
Lemma reads_sub p x key c : figures_ok p -> x_fig x <> [] ->
  reads true (x_meta x) (log_sub_table p (mkMeta None (x_fig x ++ [95] ++ key) (Some (x_fig x))) c).
Proof.
  intros H F. apply reads_iter. intros t. apply reads_figure; [exact H | apply sub_named | | discriminate].
  left. exists key. reflexivity.
Qed.
(** The figure split off, if there is one. *)
Definition split_ok (x : xctx) (ex : extra) : Prop :=
  forall m t, ex = Some (m, t) -> m_parent m = None /\ exists prefix, ec_handler (x_cls x) = HSplit prefix (m_fig m).
Lemma split_handler h y p ex : row_err_handler h y = (p, ex) ->
  forall m t, ex = Some (m, t) -> m_parent m = None /\ exists prefix, h = HSplit prefix (m_fig m).
Proof.
  unfold row_err_handler. destruct h as [|prefix fig|suf].
  - destruct (children t_td (y_row y)) as [|? [|]]; intros [= <- <-] m t [=].
  - destruct (startswith _ _); intros [= <- <-] m t [= <- _]. cbn. split; [reflexivity | eexists; reflexivity].
  - destruct (endswith _ _); intros [= <- <-] m t [=].
Qed.
Lemma struct_loop_split p x : forall rows fin dyn fs f fs' ex f' t,
  log_struct_loop spec revision qualname p x rows fin dyn fs f = (Ok (fs', ex), f', t) -> split_ok x ex.
Proof.
  induction rows as [|y rows IH]; intros fin dyn fs f fs' ex f' t; cbn [log_struct_loop].
  - destruct fin; [discriminate|]. intros [= <- <- <- <-] m t0 [=].
  - destruct (contains_th (y_row y)); [apply IH|].
    destruct (extract_fields x (y_row y)) as [[[[rt ct] lt] c]|].
    + assert (K : forall B (l : L B) (k : B -> L (list sfield * extra)) f0 fs0 f1 t0,
        (forall a f fs f' t, k a f = (Ok (fs, ex), f', t) -> split_ok x ex) ->
        lbind l k f0 = (Ok (fs0, ex), f1, t0) -> split_ok x ex).
      { intros B l k f0 fs0 f1 t0 H. unfold lbind. destruct (l f0) as [[[a|e|] f2] t2]; try discriminate.
        destruct (k a f2) as [[r3 f3] t3] eqn:E. intros [= -> _ _]. exact (H _ _ _ _ _ E). }
      destruct (_ || _).
      * destruct (is_special_case rt); [apply IH|]. apply K. intros a g gs g' u. apply IH.
      * apply K. intros r g gs g' u. apply K. intros l g0 gs0 g0' u0. apply K. intros ? g1 gs1 g1' u1. apply IH.
    + destruct (startswith ELLIPSIS _); [apply IH|]. destruct (startswith (utf8 "note") _).
      { intros [= <- <- <- <-] m t0 [=]. }
      destruct (row_err_handler _ y) as [[| |] ex0] eqn:R; [|apply IH|discriminate].
      intros [= <- <- <- <-]. exact (split_handler _ _ _ _ R).
Qed.
Lemma reads_struct_loop p x : figures_ok p -> x_fig x <> [] -> forall rows fin dyn fs,
  reads true (x_meta x) (log_struct_loop spec revision qualname p x rows fin dyn fs).
Proof.
  intros H F rows fin. induction rows as [|y rows IH]; intros dyn fs; cbn [log_struct_loop].
  - destruct fin; [apply reads_throw | apply reads_ret].
  - destruct (contains_th (y_row y)); [apply IH|].
    destruct (extract_fields x (y_row y)) as [[[[rt ct] lt] c]|].
    + destruct (_ || _).
      * destruct (is_special_case rt); [apply IH|]. apply reads_bind; [apply reads_lift, quiet_range | intros r; apply IH].
      * apply reads_bind; [apply reads_lift; destruct dyn; [apply quiet_dynamic | apply quiet_range]|].
        intros r. apply reads_bind; [apply reads_label, F|]. intros l.
        apply reads_bind; [apply reads_sub; assumption | intros _; apply IH].
    + destruct (startswith ELLIPSIS _); [apply IH|]. destruct (startswith (utf8 "note") _); [apply reads_ret|].
      destruct (row_err_handler _ y) as [[| |] ex]; [apply reads_ret | apply IH | apply reads_row].
Qed.
Lemma reads_value_loop p ov x : figures_ok p -> x_fig x <> [] -> forall rows fin fs,
  reads true (x_meta x) (log_value_loop p ov x rows fin fs).
Proof.
  intros H F rows fin. induction rows as [|y rows IH]; intros fs; cbn [log_value_loop].
  - destruct fin; [apply reads_throw | apply reads_ret].
  - destruct (contains_th (y_row y)); [apply IH|].
    assert (K : reads true (x_meta x)
      (if startswith ELLIPSIS (lower (to_text (y_row y)))
       then log_value_loop p ov x rows fin (fs ++ [mkVField ELLIPSIS ELLIPSIS None])
       else if startswith (utf8 "notes:") (lower (to_text (y_row y))) then lret fs
            else log_value_loop p ov x rows fin fs)).
    { destruct (startswith ELLIPSIS _); [apply IH|]. destruct (startswith (utf8 "notes:") _); [apply reads_ret | apply IH]. }
    destruct (key_elem x (y_row y)) as [v|]; [|exact K]. destruct (content_elem x (y_row y)) as [c|]; [|exact K].
    destruct (seqb _ ELLIPSIS); [apply IH|]. apply reads_bind.
    + apply reads_lift. destruct (override_of _ _ _); [repeat quiet_step | apply quiet_value_label].
    + intros l. apply reads_bind; [apply reads_sub; assumption | intros _; apply IH].
Qed.
Lemma reads_struct_call b p x k tbl : figures_ok p -> x_fig x <> [] ->
  (forall prefix fig, ec_handler (x_cls x) = HSplit prefix fig -> fig <> [] /\ lookup_fig (p_fig_overrides P) (x_fig x) = Some (x_cls x)) ->
  (b = true -> forall prefix fig, ec_handler (x_cls x) <> HSplit prefix fig) ->
  reads b (x_meta x) (log_struct_call spec revision qualname p x k tbl).
Proof.
  intros H F HS HB. unfold log_struct_call. destruct (row_iter tbl) as [rows fin].
  pose proof (reads_struct_loop p x H F rows fin false []) as RL.
  pose proof (struct_loop_split p x rows fin false [] false) as SL.
  intros r f t. unfold lbind at 1. destruct (log_struct_loop _ _ _ _ _ _ _ _ _ false) as [[[[fs ex]|e|] f1] t1] eqn:E1.
  - specialize (RL _ _ _ E1). cbn in RL. destruct RL as [R1 R2]. rewrite (R2 eq_refl) in *. specialize (SL _ _ _ _ eq_refl).
    match goal with |- context [lbind ?a ?c false] =>
      assert (K : reads b (x_meta x) (lbind a c)) end.
    { apply reads_bind; [apply reads_lift, quiet_struct|]. intros _. apply reads_bind; [apply reads_lift, quiet_emit|]. intros _.
      destruct ex as [[m' t']|]; [|apply reads_ret]. destruct (SL _ _ eq_refl) as (M1 & prefix & M2).
      destruct (HS _ _ M2) as [M3 M4]. apply reads_figure; [exact H | split; [exact M3 | congruence] | | intros B; destruct (HB B _ _ M2)].
      right. split; [exact M1|]. exists (x_cls x), prefix. split; [exact M4 | exact M2]. }
    match goal with |- context [lbind ?a ?b false] => destruct (lbind a b false) as [[r2 f2] t2] eqn:E2 end.
    intros [= <- <- <-]. specialize (K _ _ _ E2).
    destruct r2 as [b2|e|]; [|destruct K as [[K1 K2]|[K1 K2]]|exact Logic.I].
    + destruct K as [K1 K2]. split; [apply fine_app; assumption | exact K2].
    + left. split; [exact K1 | apply passed_app; assumption].
    + right. split; [exact K1 | apply fresh_app; assumption].
  - intros [= <- <- <-]. exact (RL _ _ _ E1).
  - intros [= <- <- <-]. exact Logic.I.
Qed.
Lemma reads_value_call b p ov x tbl : figures_ok p -> x_fig x <> [] -> reads b (x_meta x) (log_value_call p ov x tbl).
Proof.
  intros H F. unfold log_value_call. destruct (row_iter tbl) as [rows fin].
  apply reads_bind; [apply reads_value_loop; assumption|]. intros fs. apply reads_bind; [apply reads_lift, quiet_values|].
  intros _. apply reads_lift, quiet_emit.
Qed.

(** The handler *)
Lemma told_failed m c e t ts rest f1 ctx : told t ts rest -> Forall (nested P) ts -> m_fig m <> [] ->
  (rest = [] \/ exists g row, rest = [g] /\ for_log e m g /\ In (utf8 "range", JStr row) (g_extra g)) ->
  ctx = match m_title m with Some t => [(utf8 "title", JStr t)] | None => [] end ->
  exists t' row, add_issue T1000 (m_fig m) None ctx f1 = (Ok tt, f1, t')
    /\ told (t ++ Said (failed_msg printable spec revision qualname m c)
                 :: Said (exception_msg spec revision qualname m c e) :: map Did t') (ts ++ [Failure row m e []]) [].
Proof.
  intros (gs & A & B & C) NE F R E. exists [EvLint (mkLint T1000 (m_fig m) (code_msg T1000) None ctx)].
  assert (AI : add_issue T1000 (m_fig m) None ctx f1 = (Ok tt, f1, [EvLint (mkLint T1000 (m_fig m) (code_msg T1000) None ctx)])).
  { unfold add_issue. destruct (seqb_spec (m_fig m) []); [contradiction | reflexivity]. }
  assert (K : forall row, told (t ++ Said (failed_msg printable spec revision qualname m c)
                 :: Said (exception_msg spec revision qualname m c e)
                 :: map Did [EvLint (mkLint T1000 (m_fig m) (code_msg T1000) None ctx)]) (ts ++ [Failure row m e []]) []
     <-> (exists gs', all_reports (ts ++ [Failure row m e []]) gs' /\ gs ++ rest ++ [failed_msg printable spec revision qualname m c;
            exception_msg spec revision qualname m c e] = gs')).
  { intros row. unfold told. rewrite said_app, done_app, entries_app. cbn [map said done flat_map app].
    rewrite B. rewrite <- app_assoc. split.
    - intros (gs' & X & Y & _). rewrite app_nil_r in Y. exists gs'. split; [exact X | exact Y].
    - intros (gs' & X & Y). exists gs'. split; [exact X|]. rewrite app_nil_r. split; [exact Y|].
      apply Forall2_app; [exact C|]. constructor; [|constructor]. cbn. auto. }
  destruct R as [-> | (g & row & -> & R1 & R2)]; [exists None | exists (Some row)];
    (split; [exact AI|]); apply K; eexists; (split; [|reflexivity]);
    apply all_reports_app; try exact A; apply all_reports_one.
  - apply rp_failure; [apply failed_ok | apply exception_ok | constructor].
  - apply rp_row; [exact R1 | exact R2 | apply failed_ok | apply exception_ok | constructor].
Qed.
Lemma told_in m c e t ts row m0 ms : told t (ts ++ [Failure row m0 e ms]) [] ->
  told (t ++ [Said (in_msg printable spec revision qualname m c)]) (ts ++ [Failure row m0 e (ms ++ [m])]) [].
Proof.
  intros (gs & A & B & C). exists (gs ++ [in_msg printable spec revision qualname m c]).
  apply all_reports_split in A as (a & b & -> & A1 & A2). apply all_reports_one_inv in A2. rewrite said_app, done_app, entries_app, B.
  split; [|split].
  - rewrite <- app_assoc. apply all_reports_app; [exact A1|]. apply all_reports_one.
    inversion A2; subst; cbn [app];
      [apply rp_failure | apply rp_row]; try assumption; (apply Forall2_app; [assumption|]); repeat constructor; apply in_ok.
  - rewrite !app_nil_r. reflexivity.
  - cbn [done flat_map app entries lints_of filter]. rewrite app_nil_r.
    apply Forall2_app_inv_l in C as (l1 & l2 & C1 & C2 & ->). apply Forall2_app; [exact C1|].
    inversion C2 as [|? ? ? ? C3 C4]; subst. constructor; [exact C3 | exact C4].
Qed.
Lemma figure_caught b m c l : m_fig m <> [] -> reads b m l -> (m_parent m <> None -> b = true) ->
  forall r f t, lcatch l (log_fig_error printable spec revision qualname P m c) false = (r, f, t) ->
    match r with
    | Ok _ => fine t /\ (m_parent m <> None -> f = false)
    | Exn e => f = true /\ exists ts row m0 ms, told t (ts ++ [Failure row m0 e ms]) [] /\ Forall (nested P) ts
           /\ chain P m0 ms /\ outermost m0 ms = m
    | OutOfFuel => True
    end.
Proof.
  intros F H HB r f t. unfold lcatch. destruct (l false) as [[[[]|e|] f1] t1] eqn:E1; specialize (H _ _ _ E1); cbn in H.
  - intros [= <- <- <-]. destruct H as [H1 H2]. split; [exact H1 | intros NP; apply H2, HB, NP].
  - set (Q := fun t' => exists ts row m0 ms, told t' (ts ++ [Failure row m0 e ms]) [] /\ Forall (nested P) ts
           /\ chain P m0 ms /\ outermost m0 ms = m).
    assert (E2 : exists t2, log_fig_error printable spec revision qualname P m c e f1
        = (match m_parent m with Some _ => Exn e | None => if p_skip P then Ok tt else Exn e end, true, t2) /\ Q (t1 ++ t2)).
    { destruct H as [(-> & ts & row & m0 & ms & T & N & C & D)|(-> & ts & rest & T & N & R)].
      - exists [Said (in_msg printable spec revision qualname m c)]. split.
        + unfold log_fig_error, lbind, lift, get_flag, say. cbn. destruct (m_parent m); [reflexivity|]. destruct (p_skip P); reflexivity.
        + exists ts, row, m0, (ms ++ [m]). split; [apply told_in, T|]. split; [exact N|].
          split; [apply chain_snoc; assumption | apply outermost_snoc].
      - destruct (told_failed m c e t1 ts rest true _ T N F R eq_refl) as (t' & row & A1 & A2).
        exists (Said (failed_msg printable spec revision qualname m c) :: Said (exception_msg spec revision qualname m c e) :: map Did t').
        split.
        + unfold log_fig_error, lbind, lift, get_flag, set_flag, say. cbn -[add_issue utf8]. rewrite A1. cbn [app].
          destruct (m_parent m); [|destruct (p_skip P)]; cbn; rewrite app_nil_r; reflexivity.
        + exists ts, row, m, []. split; [exact A2|]. split; [exact N|]. split; [constructor | reflexivity]. }
    destruct E2 as (t2 & -> & QQ). intros [= <- <- <-].
    assert (FI : fine (t1 ++ t2)).
    { destruct QQ as (ts & row & m0 & ms & T & N & C & O). exists (ts ++ [Failure row m0 e ms]). split; [exact T|].
      apply Forall_app. split; [exact N|]. repeat constructor. exact C. }
    destruct (m_parent m); [split; [reflexivity | exact QQ]|]. destruct (p_skip P).
    + split; [exact FI | congruence].
    + split; [reflexivity | exact QQ].
  - intros [= <- <- <-]. exact Logic.I.
Qed.

Lemma log_extractor_some p m tbl hs c mp : can_apply c hs = Some mp ->
  exists k l d, last_position hs (mp_key mp) k /\ last_position hs (mp_label mp) l /\ last_position hs (mp_content mp) d
    /\ log_run_extractor spec revision qualname p P m tbl hs c mp
       = Some (match ec_kind c with
               | EKStruct sk => log_struct_call spec revision qualname p (mkX c m k l d) sk tbl
               | EKValues => log_value_call p (p_label_overrides P) (mkX c m k l d) tbl
               end).
Proof.
  intros H. destruct (can_apply_cols c hs mp H) as (I1 & I2 & I3).
  destruct (proj1 (col_index_last hs (mp_key mp) 0 None) I1) as (k & Ek & Lk).
  destruct (proj1 (col_index_last hs (mp_label mp) 0 None) I2) as (l & El & Ll).
  destruct (proj1 (col_index_last hs (mp_content mp) 0 None) I3) as (d & Ed & Ld).
  exists k, l, d. repeat (split; [assumption|]). unfold log_run_extractor. rewrite Ek, El, Ed. reflexivity.
Qed.
Lemma lookup_In' l fig c : lookup_fig l fig = Some c -> In (fig, c) l.
Proof.
  unfold lookup_fig. destruct (find _ l) as [[k v]|] eqn:E; [|discriminate]. intros [= <-].
  apply find_some in E as [E1 E2]. cbn [fst] in E2. apply seqb_eq in E2 as <-. exact E1.
Qed.
Lemma default_handlers hs c mp : select_extractor extractors hs = Some (c, mp) -> ec_handler c = HDefault /\ can_apply c hs = Some mp.
Proof.
  unfold extractors. cbn [select_extractor].
  destruct (can_apply BytesTableExtractor hs) eqn:E1; [intros [= <- <-]; split; [reflexivity | exact E1]|].
  destruct (can_apply ValueTableExtractor hs) eqn:E2; [intros [= <- <-]; split; [reflexivity | exact E2]|].
  destruct (can_apply BitsTableExtractor hs) eqn:E3; [intros [= <- <-]; split; [reflexivity | exact E3]|]. discriminate.
Qed.
Lemma figure_told n : figures_ok (log_parse_fig printable spec revision qualname n P).
Proof.
  induction n as [|n IH]; intros m tbl f r f' t [F HI]; cbn [log_parse_fig].
  { intros [= <- <- <-]. exact Logic.I. }
  unfold lbind at 1. cbn [lift set_flag map]. unfold lbind at 1, lift at 1.
  destruct (extract_tbl_headers (m_fig m) tbl false) as [[rh fh] th] eqn:EH.
  destruct (headers_spec _ _ _ _ _ _ F EH) as (hs & -> & -> & TH & _).
  pose proof (quiet_headers (m_fig m) tbl _ _ _ _ EH) as (_ & QH & _).
  assert (T0 : fine (map Did th)) by (exists []; split; [apply told_did, QH | constructor]).
  assert (R : forall c mp, can_apply c hs = Some mp ->
     (forall prefix fig, ec_handler c = HSplit prefix fig -> fig <> [] /\ lookup_fig (p_fig_overrides P) (m_fig m) = Some c) ->
     forall r f' t,
     match log_run_extractor spec revision qualname (log_parse_fig printable spec revision qualname n P) P m tbl hs c mp with
     | Some run => lcatch run (log_fig_error printable spec revision qualname P m c)
     | None => lthrow EKeyError
     end false = (r, f', t) ->
     match r with
     | Ok _ => fine (map Did th ++ t) /\ (m_parent m <> None -> f' = false)
     | Exn e =>
        (f' = true /\ exists ts row m0 ms, told (map Did th ++ t) (ts ++ [Failure row m0 e ms]) [] /\ Forall (nested P) ts
           /\ chain P m0 ms /\ outermost m0 ms = m)
        \/ (f' = false /\ fine (map Did th ++ t) /\ unrecognised P m tbl)
     | OutOfFuel => True
     end).
  { intros c mp CA HH r0 f0 t0. destruct (log_extractor_some (log_parse_fig printable spec revision qualname n P) m tbl hs c mp CA)
      as (k & l & d & _ & _ & _ & ->).
    set (x := mkX c m k l d). intros E.
    set (b := match m_parent m with Some _ => true | None => false end).
    assert (RD : reads b m (match ec_kind c with
               | EKStruct sk => log_struct_call spec revision qualname (log_parse_fig printable spec revision qualname n P) x sk tbl
               | EKValues => log_value_call (log_parse_fig printable spec revision qualname n P) (p_label_overrides P) x tbl
               end)).
    { destruct (ec_kind c) as [sk|].
      - apply (reads_struct_call _ _ x); [exact IH | exact F | exact HH|].
        intros B prefix fig HS. destruct (HH _ _ HS) as [_ LK]. apply lookup_In' in LK.
        destruct (TM _ _ _ _ LK HS) as (_ & NU & _). apply NU, HI. unfold b in B. destruct (m_parent m); congruence.
      - apply (reads_value_call _ _ _ x); [exact IH | exact F]. }
    assert (HB : m_parent m <> None -> b = true) by (unfold b; destruct (m_parent m); congruence).
    pose proof (figure_caught b m c _ F RD HB _ _ _ E) as K. destruct r0 as [a|e|]; [| |exact Logic.I].
    - destruct K as [K1 K2]. split; [apply fine_app; assumption | exact K2].
    - destruct K as (-> & ts & row & m0 & ms & T & NE & C & O). left. split; [reflexivity|]. destruct T0 as (ts0 & T0 & N0).
      exists (ts0 ++ ts), row, m0, ms. split; [rewrite <- app_assoc; apply told_app; assumption|].
      split; [apply Forall_app; auto | auto]. }
  destruct (lookup_fig (p_fig_overrides P) (m_fig m)) as [c|] eqn:LK.
  - destruct (can_apply c hs) as [mp|] eqn:CA.
    + assert (HH : forall prefix fig, ec_handler c = HSplit prefix fig -> fig <> [] /\ Some c = Some c).
      { intros prefix fig HS. split; [|reflexivity]. apply lookup_In' in LK. exact (proj1 (TM _ _ _ _ LK HS)). }
      pose proof (R c mp CA HH) as K.
      match type of K with forall r f t, ?z = _ -> _ => destruct z as [[r1 f1] t1] eqn:E1 end.
      intros [= <- <- <-]. exact (K _ _ _ eq_refl).
    + intros [= <- <- <-]. right. split; [reflexivity|]. rewrite app_nil_r. split; [exact T0|].
      apply mismatch_iff. exists c, hs. auto.
  - destruct (select_extractor extractors hs) as [[c mp]|] eqn:SE.
    + apply default_handlers in SE as [HD CA].
      assert (HH : forall prefix fig, ec_handler c = HSplit prefix fig -> fig <> [] /\ None = Some c) by (intros prefix fig HS; congruence).
      pose proof (R c mp CA HH) as K.
      match type of K with forall r f t, ?z = _ -> _ => destruct z as [[r1 f1] t1] eqn:E1 end.
      intros [= <- <- <-]. exact (K _ _ _ eq_refl).
    + pose proof (quiet_add T1007 (m_fig m) None [(utf8 "columns", JList (map JStr hs))] ltac:(discriminate) ltac:(discriminate) false) as QA.
      unfold lift. destruct (add_issue T1007 _ _ _ false) as [[r1 f1] t1] eqn:E1. specialize (QA _ _ _ eq_refl).
      intros [= <- <- <-]. destruct QA as (-> & Q & NF).
      assert (r1 = Ok tt) as ->.
      { unfold add_issue in E1. destruct (seqb_spec (m_fig m) []); [contradiction|]. injection E1. auto. }
      split; [|reflexivity]. apply fine_app; [exact T0|]. exists []. split; [apply told_did, Q | constructor].
Qed.

(** ** The tables of a document *)
Definition stopped (tbls : list elem) (e : exn) (t : list act) : Prop :=
  (fine t /\ exists x, In x tbls /\ (rowless x \/ exists m tbl, identified x m tbl /\ unrecognised P m tbl))
  \/ exists x m tbl ts row m0 ms, In x tbls /\ identified x m tbl
       /\ told t (ts ++ [Failure row m0 e ms]) [] /\ Forall (nested P) ts /\ chain P m0 ms /\ outermost m0 ms = m.
Lemma stopped_app tbls a e t t' : fine t -> stopped tbls e t' -> stopped (a :: tbls) e (t ++ t').
Proof.
  intros F [(F' & x & I1 & I2) | (x & m & tbl & ts & row & m0 & ms & I1 & I2 & T & N & C)].
  - left. split; [apply fine_app; assumption|]. exists x. split; [right; exact I1 | exact I2].
  - right. destruct F as (ts0 & T0 & N0). exists x, m, tbl, (ts0 ++ ts), row, m0, ms. split; [right; exact I1|].
    split; [exact I2|]. split; [rewrite <- app_assoc; apply told_app; assumption|]. split; [apply Forall_app; auto | exact C].
Qed.
Lemma tables_told : forall tbls n f r f' t,
  log_tables printable spec revision qualname P n tbls f = (r, f', t) ->
  match r with Ok _ => fine t | Exn e => stopped tbls e t | OutOfFuel => True end.
Proof.
  induction tbls as [|x tbls IH]; intros n f r f' t; cbn [log_tables].
  { intros [= <- <- <-]. apply fine_nil. }
  assert (B : forall (l : L unit) (k : unit -> L unit) f r f' t,
    (forall r f' t, l f = (r, f', t) -> match r with Ok _ => fine t | Exn e => stopped (x :: tbls) e t | OutOfFuel => True end) ->
    (forall f r f' t, k tt f = (r, f', t) -> match r with Ok _ => fine t | Exn e => stopped tbls e t | OutOfFuel => True end) ->
    lbind l k f = (r, f', t) -> match r with Ok _ => fine t | Exn e => stopped (x :: tbls) e t | OutOfFuel => True end).
  { intros l k f0 r0 f0' t0 Hl Hk. unfold lbind. destruct (l f0) as [[[[]|e|] f1] t1]; specialize (Hl _ _ _ eq_refl); cbn in Hl.
    - destruct (k tt f1) as [[r2 f2] t2] eqn:E2. specialize (Hk _ _ _ _ E2). intros [= <- <- <-].
      destruct r2 as [a|e|]; [apply fine_app; assumption | apply stopped_app; assumption | exact Logic.I].
    - intros [= <- <- <-]. exact Hl.
    - intros [= <- <- <-]. exact Logic.I. }
  destruct (classify x) as [| |title|m tbl] eqn:CL.
  - intros [= <- <- <-]. left. split; [apply fine_nil|]. exists x. split; [left; reflexivity|]. left.
    pose proof (classify_spec x) as CS. rewrite CL in CS. exact CS.
  - intros E. specialize (IH _ _ _ _ _ E). destruct r as [a|e|]; [exact IH | | exact Logic.I].
    exact (stopped_app _ x _ [] t fine_nil IH).
  - intros E.
    assert (E' : lbind (lbind (say (no_id_msg printable title))
       (fun _ => lift (add_issue T1008 (missing_name n) None [(utf8 "title", JStr title)])))
       (fun _ => log_tables printable spec revision qualname P (n + 1) tbls) f = (r, f', t)).
    { revert E. unfold lbind, say, lift. destruct (add_issue T1008 _ _ _ f) as [[[a|e|] f1] t1]; cbn [app]; try exact (fun H => H).
      destruct (log_tables _ _ _ _ _ _ _ _) as [[r2 f2] t2]. exact (fun H => H). }
    refine (B _ _ _ _ _ _ _ _ E'); [|intros; eapply IH; eassumption].
    clear E E' r f' t. intros r f' t. unfold lbind, say, lift, add_issue.
    destruct (seqb_spec (missing_name n) []) as [M|M]; [destruct (missing_named n M)|].
    cbn [needs_row andb emit map app]. intros [= <- <- <-]. exists [NoId title]. split; [|repeat constructor].
    exists [no_id_msg printable title]. split; [|split; [reflexivity|]].
    + apply all_reports_one. eapply rp_no_id; try reflexivity. apply repr_str_ok.
    + constructor; [|constructor]. split; reflexivity.
  - intros E. refine (B _ _ _ _ _ _ _ _ E); [|intros; eapply IH; eassumption].
    clear E r f' t. intros r f' t E. apply identified_iff in CL as ID. destruct (identified_named _ _ _ ID) as [F NP].
    assert (HI : has_id m) by (split; [exact F | congruence]).
    pose proof (figure_told _ m tbl f r f' t HI E) as K.
    destruct r as [a|e|]; [apply K | | exact Logic.I].
    destruct K as [(-> & ts & row & m0 & ms & K)|(-> & K1 & K2)].
    + right. exists x, m, tbl, ts, row, m0, ms. split; [left; reflexivity|]. split; [exact ID | exact K].
    + left. split; [exact K1|]. exists x. split; [left; reflexivity|]. right. exists m, tbl. auto.
Qed.

End Flow.

Lemma troubled_iff l : troubled l = true <-> trouble_code l.
Proof. unfold troubled, trouble_code. destruct (l_code l); cbn; split; intros H; try discriminate; auto; destruct H; discriminate. Qed.
Lemma entries_those t : those trouble_code (lints_of t) (entries t).
Proof.
  unfold entries. induction (lints_of t) as [|l ls IH]; cbn [filter]; [constructor|].
  destruct (troubled l) eqn:E; [apply th_in | apply th_out]; try exact IH.
  - apply troubled_iff, E.
  - intros H. apply troubled_iff in H. congruence.
Qed.
