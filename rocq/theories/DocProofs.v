(** Where the entities and lints of a document come from. *)
From Coq Require Import NArith ZArith List Bool String Lia ZifyBool ZifyN.
From Verif Require Import PyTables PyStr PyStrFacts Regex RegexFacts Regexes Xml Json Lint RowIter Helpers Extract Document
  MFacts SpecText SpecFields SpecLabel SpecHeader SpecRows SpecIter SpecTable SpecDoc IterProofs
  RangeProofs LabelProofs ValidateProofs RowProofs HeaderProofs Prop_Header TableProofs SizeProofs SpecNames NameProofs CellRead.
Import ListNotations.
Local Open Scope list_scope.
Local Open Scope N_scope.
Local Open Scope m_scope.

(** ** Reasoning about every run of a computation *)
Section SAFE.
Variable G : event -> list event -> Prop.
Hypothesis Gmono : forall e t t', incl t t' -> G e t -> G e t'.
Variable E : exn -> Prop.

Definition safe {A} (Q : A -> Prop) (m : M A) : Prop :=
  forall f r f' t, m f = (r, f', t) ->
    (forall e, In e t -> G e t) /\ (forall a, r = Ok a -> Q a) /\ (forall x, r = Exn x -> E x).

Lemma safe_ret {A} (Q : A -> Prop) a : Q a -> safe Q (ret a).
Proof. intros H f r f' t [= <- <- <-]. split; [intros ? []|]. split; [intros ? [= <-]; exact H | discriminate]. Qed.
Lemma safe_throw {A} (Q : A -> Prop) e : E e -> safe Q (throw e).
Proof. intros H f r f' t [= <- <- <-]. split; [intros ? []|]. split; [discriminate | intros ? [= <-]; exact H]. Qed.
Lemma safe_emit (Q : unit -> Prop) e : Q tt -> G e [e] -> safe Q (emit e).
Proof.
  intros H HG f r f' t [= <- <- <-]. split; [intros ? [<- | []]; exact HG|].
  split; [intros ? [= <-]; exact H | discriminate].
Qed.
Lemma safe_set_flag b (Q : unit -> Prop) : Q tt -> safe Q (set_flag b).
Proof. intros H f r f' t [= <- <- <-]. split; [intros ? []|]. split; [intros ? [= <-]; exact H | discriminate]. Qed.
Lemma safe_get_flag (Q : bool -> Prop) : (forall b, Q b) -> safe Q get_flag.
Proof. intros H f r f' t [= <- <- <-]. split; [intros ? []|]. split; [intros ? [= <-]; apply H | discriminate]. Qed.

Lemma safe_bind {A B} (Q : A -> Prop) (R : B -> Prop) m k :
  safe Q m -> (forall a, Q a -> safe R (k a)) -> safe R (bind m k).
Proof.
  intros Hm Hk f r f' t. unfold bind. destruct (m f) as [[[a|e|] f1] t1] eqn:Em.
  - destruct (k a f1) as [[r2 f2] t2] eqn:Ek. intros [= <- <- <-].
    destruct (Hm _ _ _ _ Em) as (A1 & A2 & _). destruct (Hk a (A2 a eq_refl) _ _ _ _ Ek) as (B1 & B2 & B3).
    split; [|split; assumption]. intros e He. apply in_app_or in He as [He | He].
    + eapply Gmono, A1, He. apply incl_appl, incl_refl.
    + eapply Gmono, B1, He. apply incl_appr, incl_refl.
  - intros [= <- <- <-]. destruct (Hm _ _ _ _ Em) as (A1 & _ & A3). split; [exact A1|]. split; [discriminate|].
    intros x [= <-]. apply A3. reflexivity.
  - intros [= <- <- <-]. destruct (Hm _ _ _ _ Em) as (A1 & _ & _). split; [exact A1|]. split; discriminate.
Qed.
Lemma safe_imp {A} (Q R : A -> Prop) m : (forall a, Q a -> R a) -> safe Q m -> safe R m.
Proof. intros H S f r f' t Em. destruct (S _ _ _ _ Em) as (A1 & A2 & A3). split; [exact A1|]. split; [|exact A3]. auto. Qed.
Lemma safe_ext {A} (Q : A -> Prop) m m' : (forall f, m f = m' f) -> safe Q m -> safe Q m'.
Proof. intros H S f r f' t Em. rewrite <- H in Em. exact (S _ _ _ _ Em). Qed.
Lemma safe_iterM {A} (Q : unit -> Prop) (g : A -> M unit) l : Q tt -> (forall a, In a l -> safe Q (g a)) -> safe Q (iterM g l).
Proof.
  intros HQ. induction l as [|a l IH]; intros H; cbn [iterM]; [apply safe_ret, HQ|].
  eapply safe_bind; [apply H; left; reflexivity|]. intros _ _. apply IH. intros; apply H; right; assumption.
Qed.
End SAFE.

Lemma safe_weaken {A} (G G' : event -> list event -> Prop) (E E' : exn -> Prop) (Q : A -> Prop) m :
  (forall e t, G e t -> G' e t) -> (forall x, E x -> E' x) -> safe G E Q m -> safe G' E' Q m.
Proof.
  intros H1 H2 S f r f' t Em. destruct (S _ _ _ _ Em) as (A1 & A2 & A3). split; [|split]; auto.
Qed.

Lemma safe_catch (G : event -> list event -> Prop) (E E' : exn -> Prop) m h :
  (forall e t t', incl t t' -> G e t -> G e t') ->
  safe G E (fun _ => True) m -> (forall x, E x -> safe G E' (fun _ => True) (h x)) ->
  safe G E' (fun _ => True) (catch m h).
Proof.
  intros Gm Hm Hh f r f' t. unfold catch. destruct (m f) as [[[a|e|] f1] t1] eqn:Em.
  - intros [= <- <- <-]. destruct (Hm _ _ _ _ Em) as (A1 & _ & _). split; [exact A1|]. split; [auto | discriminate].
  - destruct (h e f1) as [[r2 f2] t2] eqn:Eh. intros [= <- <- <-].
    destruct (Hm _ _ _ _ Em) as (A1 & _ & A3). destruct (Hh e (A3 e eq_refl) _ _ _ _ Eh) as (B1 & B2 & B3).
    split; [|split; assumption]. intros ev He. apply in_app_or in He as [He | He].
    + eapply Gm, A1, He. apply incl_appl, incl_refl.
    + eapply Gm, B1, He. apply incl_appr, incl_refl.
  - intros [= <- <- <-]. destruct (Hm _ _ _ _ Em) as (A1 & _ & _). split; [exact A1|]. split; discriminate.
Qed.

(** ** The row-level functions only record issues about their own figure *)
Lemma code_msg_nonempty c : code_msg c <> [].
Proof. destruct c; discriminate. Qed.

(** Codes recorded while rows are read. *)
Definition row_code (c : code) : Prop :=
  In c [R1001; R1002; L1000; L1003; L1004; L1007].
Definition own (x : xctx) (e : event) (_ : list event) : Prop :=
  exists l, e = EvLint l /\ l_fig l = x_fig x /\ row_code (l_code l) /\ wellformed_lint l.
Definition no_assert (e : exn) : Prop := e <> EAssertion /\ e <> EKeyError.

Lemma needs_row_spec c :
  (exists r, code_name c = utf8 "R" ++ r \/ code_name c = utf8 "L" ++ r \/ code_name c = utf8 "V" ++ r)
  -> needs_row c = true.
Proof. destruct c; intros (r & [H | [H | H]]); try reflexivity; discriminate. Qed.

Lemma own_mono x e t t' : incl t t' -> own x e t -> own x e t'.
Proof. intros _ H. exact H. Qed.

Lemma own_issue x c row ctx (Q : unit -> Prop) : x_fig x <> [] -> row_code c -> (needs_row c = true -> row <> None) -> code_context c ctx -> Q tt ->
  safe (own x) no_assert Q (issue x c row ctx).
Proof.
  intros Hx Hc Hr HC HQ f r f' t. unfold issue, add_issue.
  destruct (seqb_spec (x_fig x) []) as [C|_]; [contradiction|].
  destruct (needs_row c && match row with None => true | Some _ => false end) eqn:B.
  - apply andb_true_iff in B as [B1 B2]. destruct row; [discriminate|]. destruct (Hr B1). reflexivity.
  - intros [= <- <- <-]. split; [|split; [intros ? [= <-]; exact HQ | discriminate]].
    intros e [<- | []]. eexists. split; [reflexivity|]. split; [reflexivity|]. split; [exact Hc|].
    split; [exact Hx|]. split; [apply code_msg_nonempty|]. split; [reflexivity|]. split; [exact HC|].
    cbn [l_code l_row]. intros N. apply Hr, needs_row_spec, N.
Qed.

Ltac rowcode := unfold row_code; cbn; tauto.
Ltac own_step :=
  match goal with
  | |- safe _ _ _ (ret _) => apply safe_ret; exact I
  | |- safe _ _ _ (throw _) => apply safe_throw; split; discriminate
  | |- safe _ _ _ (issue _ _ _ _) => apply own_issue; [assumption | rowcode | discriminate | first [reflexivity | left; reflexivity | right; eexists; reflexivity] | exact I]
  | |- safe _ _ _ (add_issue ?c (x_fig ?x) ?r ?ctx) => change (add_issue c (x_fig x) r ctx) with (issue x c r ctx)
  | |- safe _ _ _ (bind _ _) => apply safe_bind with (Q := fun _ => True); [apply own_mono | | intros ? _]
  | |- safe _ _ _ (if ?b then _ else _) => destruct b
  | |- safe _ _ _ (match ?b with _ => _ end) => destruct b
  end.

Definition T1 {A} (_ : A) := True.

Lemma parse_range_own x t key : x_fig x <> [] -> safe (own x) no_assert T1 (parse_range x t key).
Proof. intros Hx. unfold parse_range. repeat own_step. Qed.
Lemma parse_dynamic_own x t : x_fig x <> [] -> safe (own x) no_assert T1 (parse_dynamic_range x t).
Proof. intros Hx. unfold parse_dynamic_range. cbv zeta. repeat own_step. Qed.
Lemma validate_label_own x l key : x_fig x <> [] -> safe (own x) no_assert T1 (validate_label l (x_fig x) key).
Proof. intros Hx. unfold validate_label. repeat own_step. Qed.
Lemma parse_label_own x t key : x_fig x <> [] -> safe (own x) no_assert T1 (parse_label x t key).
Proof.
  intros Hx. unfold parse_label, extract_label_same, extract_label_separate, validate_label. cbv zeta. repeat own_step.
Qed.
Lemma extract_value_label_own x row v c : x_fig x <> [] -> safe (own x) no_assert T1 (extract_value_label x row v c).
Proof.
  intros Hx. unfold extract_value_label, finish_value_label, extract_label_dedicated, validate_label. cbv zeta. repeat own_step.
Qed.

(** ** The checks on the finished fields *)
Lemma struct_checks x fs f : x_fig x <> [] ->
  exists evs, validate_struct x fs f = (Ok tt, f, evs)
    /\ forall e, In e evs <-> exists l, e = EvLint l /\ struct_check (x_fig x) fs l.
Proof.
  intros Hx. destruct (out_of_order_dec fs) as [O | O].
  - eexists. split; [apply validate_struct_bad; assumption|]. intros e. split.
    + intros [<- | []]. eexists. split; [reflexivity | apply sc_order, O].
    + intros (l & -> & H). inversion H; subst; try contradiction. left. reflexivity.
  - eexists. split; [apply validate_struct_good; assumption|]. intros e. rewrite expected_all_In. split.
    + intros [(a & g & b & E & P1 & (g' & G1 & G2) & ->) | [(a & p & q & b & E & H & ->) | (a & p & q & b & E & H & ->)]].
      * eexists. split; [reflexivity|]. eapply sc_label; eassumption.
      * eexists. split; [reflexivity|]. eapply sc_overlap; eassumption.
      * eexists. split; [reflexivity|]. eapply sc_gap; eassumption.
    + intros (l & -> & H). inversion H; subst; try contradiction.
      * right. left. exists a, p, q, b. auto.
      * right. right. exists a, p, q, b. auto.
      * left. exists a, f0, b. split; [reflexivity|]. split; [assumption|]. split; [exists g; auto | reflexivity].
Qed.

Lemma value_checks x fs f : x_fig x <> [] ->
  exists evs, validate_values x fs f = (Ok tt, f, evs)
    /\ forall e, In e evs <-> exists l, e = EvLint l /\ value_check (x_fig x) fs l.
Proof.
  intros Hx. eexists. split; [apply validate_values_spec, Hx|]. intros e. rewrite expected_values_In. split.
  - intros (a & g & b & E & H). rewrite app_nil_r in H. apply vdup_events_In in H as (P1 & [(g' & G1 & G2 & G3 & ->) | (g' & G1 & G2 & G3 & ->)]);
      rewrite <- in_rev in G1; eexists; (split; [reflexivity|]).
    + eapply vc_label; eassumption.
    + eapply vc_value; eassumption.
  - intros (l & -> & H). inversion H; subst; exists a, f0, b; (split; [reflexivity|]); rewrite app_nil_r; apply vdup_events_In; (split; [assumption|]).
    + left. exists g. rewrite <- in_rev. auto.
    + right. exists g. rewrite <- in_rev. auto.
Qed.

Lemma struct_check_wf fig fs l : fig <> [] -> struct_check fig fs l ->
  l_fig l = fig /\ In (l_code l) check_codes /\ wellformed_lint l.
Proof.
  intros Hf H. destruct H; (split; [reflexivity|]); (split; [cbn; tauto|]);
    (split; [exact Hf|]); (split; [apply code_msg_nonempty|]); (split; [reflexivity|]); (split; [cbn; eauto|]);
    cbn [l_row l_code]; intros N; try discriminate.
  apply needs_row_spec in N. discriminate.
Qed.
Lemma value_check_wf fig fs l : fig <> [] -> value_check fig fs l ->
  l_fig l = fig /\ In (l_code l) check_codes /\ wellformed_lint l.
Proof.
  intros Hf H. destruct H; (split; [reflexivity|]); (split; [cbn; tauto|]);
    (split; [exact Hf|]); (split; [apply code_msg_nonempty|]); (split; [reflexivity|]); (split; [cbn; eauto|]);
    cbn [l_row l_code]; intros N; discriminate.
Qed.

(** ** Headers and columns *)
Lemma headers_spec fig tbl f r f' t : fig <> [] ->
  extract_tbl_headers fig tbl f = (r, f', t) ->
  exists hs, r = Ok hs /\ f' = f /\ table_headers tbl hs
    /\ Forall (fun e => exists l, e = EvLint l /\ l_fig l = fig /\ l_code l = T1006 /\ wellformed_lint l) t.
Proof.
  intros Hf E. unfold table_headers. destruct (children t_tr tbl) as [|tr rest] eqn:C.
  - rewrite (C10_no_row fig tbl f C) in E. injection E as <- <- <-. exists []. repeat split; constructor.
  - destruct (C10_headers fig tbl tr rest f Hf C) as (hs & evss & E' & H1 & H2). rewrite E' in E. injection E as <- <- <-.
    exists hs. split; [reflexivity|]. split; [reflexivity|]. split; [exact H1|].
    apply Forall_forall. intros e He. apply in_concat in He as (evs & He & Hi).
    assert (exists c, header_lint fig c evs) as (c & HL).
    { revert H2 He. clear. induction 1 as [|k ev ks evss (c & _ & H) F IH]; intros I; [destruct I|].
      destruct I as [<- | I]; [exists c; exact H | auto]. }
    unfold header_lint in HL. destruct HL as [(v & _ & ->) | [_ ->]]; [|destruct Hi].
    destruct Hi as [<- | []]. eexists. split; [reflexivity|]. repeat split; try assumption.
    + apply code_msg_nonempty.
    + cbn. eauto.
    + intros (q & [Hq | [Hq | Hq]]); discriminate.
Qed.
Lemma table_headers_fun tbl hs hs' : table_headers tbl hs -> table_headers tbl hs' -> hs = hs'.
Proof.
  unfold table_headers. destruct (children t_tr tbl) as [|tr rest]; [congruence|]. generalize (e_kids tr).
  intros ks H. revert hs'. induction H as [|k h ks hs Hk H IH]; intros hs' H'; inversion H'; subst; [reflexivity|].
  f_equal; [eapply C10_header_unique; eassumption | apply IH; assumption].
Qed.

Lemma select_chosen hs c mp : select_extractor extractors hs = Some (c, mp) ->
  ((c = BytesTableExtractor /\ applies_bytes hs)
   \/ (c = ValueTableExtractor /\ ~ applies_bytes hs /\ applies_values hs)
   \/ (c = BitsTableExtractor /\ ~ applies_bytes hs /\ ~ applies_values hs /\ applies_bits hs))
  /\ can_apply c hs = Some mp.
Proof.
  intros S. pose proof S as S'. unfold extractors in S'. cbn [select_extractor] in S'.
  destruct (C11_choice hs) as (H1 & H2 & H3 & _).
  destruct (can_apply BytesTableExtractor hs) as [m1|] eqn:E1.
  { injection S' as <- <-. split; [left; split; [reflexivity | apply H1; eauto] | exact E1]. }
  destruct (can_apply ValueTableExtractor hs) as [m2|] eqn:E2.
  { injection S' as <- <-. split; [right; left; split; [reflexivity | apply H2; eauto] | exact E2]. }
  destruct (can_apply BitsTableExtractor hs) as [m3|] eqn:E3; [|discriminate].
  injection S' as <- <-. split; [right; right; split; [reflexivity | apply H3; eauto] | exact E3].
Qed.

(** What a figure does, given its headers. *)
Inductive figure_case (P : parser) (m : meta) (tbl : elem) (hs : list str) : M unit -> Prop :=
| fc_unsupported :
    lookup_fig (p_fig_overrides P) (m_fig m) = None -> unsupported hs ->
    figure_case P m tbl hs (add_issue T1007 (m_fig m) None [(utf8 "columns", JList (map JStr hs))])
| fc_override c :
    lookup_fig (p_fig_overrides P) (m_fig m) = Some c -> can_apply c hs = None ->
    figure_case P m tbl hs (throw ERuntime)
| fc_struct x k :
    handled P m tbl x -> ec_kind (x_cls x) = EKStruct k ->
    figure_case P m tbl hs (catch (struct_call (parse_figure P) x k tbl) (on_fig_error P m))
| fc_values x :
    handled P m tbl x -> ec_kind (x_cls x) = EKValues ->
    figure_case P m tbl hs (catch (value_call (parse_figure P) (p_label_overrides P) x tbl) (on_fig_error P m)).

Lemma uses_columns_of c hs mp k l d : can_apply c hs = Some mp ->
  last_position hs (mp_key mp) k -> last_position hs (mp_label mp) l -> last_position hs (mp_content mp) d ->
  uses_columns c hs k l d.
Proof.
  intros CA L1 L2 L3. destruct (C12_columns (fun _ _ => ret tt) (mkParser false [] []) (mkMeta None [] None) (Elem [] [] [] []) hs c mp CA)
    as (F1 & F2 & _).
  exists (mp_key mp), (mp_label mp), (mp_content mp). repeat (split; [assumption|]).
  destruct F2 as [F2 | (A & B & C & D & F & G)]; [left; exact F2 | right].
  split; [exact A|]. split; [exact B|]. split; [exact C|]. split; [exact D|]. split; [exact F | exact G].
Qed.

Lemma parse_figure_cases P m tbl f : m_fig m <> [] ->
  exists hs t0 body, table_headers tbl hs
    /\ extract_tbl_headers (m_fig m) tbl false = (Ok hs, false, t0)
    /\ figure_case P m tbl hs body
    /\ parse_figure P m tbl f = (fst (fst (body false)), snd (fst (body false)), t0 ++ snd (body false)).
Proof.
  intros Hf. rewrite parse_figure_unfold.
  destruct (extract_tbl_headers (m_fig m) tbl false) as [[r f'] t0] eqn:EH.
  destruct (headers_spec _ _ _ _ _ _ Hf EH) as (hs & -> & -> & TH & _).
  exists hs, t0.
  assert (B : forall (k : list str -> M unit) body, body = k hs ->
     (set_flag false ;; hdrs <- extract_tbl_headers (m_fig m) tbl ;; k hdrs) f
     = (fst (fst (body false)), snd (fst (body false)), t0 ++ snd (body false))).
  { intros k body ->. erewrite bind_ok by reflexivity. cbn [app]. rewrite (bind_ok _ _ _ _ _ _ EH). reflexivity. }
  assert (C : forall c mp, can_apply c hs = Some mp -> chosen P (m_fig m) hs c ->
     figure_case P m tbl hs (figure_body P m tbl c hs mp)).
  { intros c mp CA CH. destruct (run_extractor_some (parse_figure P) P m tbl hs c mp CA) as (k & l & d & L1 & L2 & L3 & E).
    unfold figure_body. rewrite E.
    assert (HD : handled P m tbl (mkX c m k l d)).
    { split; [reflexivity|]. exists hs. split; [exact TH|]. split; [exact CH|]. cbn. eapply uses_columns_of; eassumption. }
    destruct (ec_kind c) as [sk|] eqn:K.
    - apply fc_struct; [exact HD | exact K].
    - apply fc_values; [exact HD | exact K]. }
  destruct (lookup_fig (p_fig_overrides P) (m_fig m)) as [c|] eqn:LK.
  - destruct (can_apply c hs) as [mp|] eqn:CA.
    + exists (figure_body P m tbl c hs mp). split; [exact TH|]. split; [reflexivity|]. split.
      * apply C; [exact CA|]. unfold chosen. rewrite LK. reflexivity.
      * apply B. rewrite CA. reflexivity.
    + exists (throw ERuntime). split; [exact TH|]. split; [reflexivity|]. split; [eapply fc_override; eassumption|].
      apply B. rewrite CA. reflexivity.
  - destruct (select_extractor extractors hs) as [[c mp]|] eqn:SE.
    + exists (figure_body P m tbl c hs mp). split; [exact TH|]. split; [reflexivity|]. split.
      * apply select_chosen in SE as [S1 S2]. apply C; [exact S2|]. unfold chosen. rewrite LK. exact S1.
      * apply B. rewrite SE. reflexivity.
    + eexists. split; [exact TH|]. split; [reflexivity|]. split; [apply fc_unsupported; [exact LK|]|].
      * apply (proj1 (proj2 (proj2 (proj2 (C11_choice hs))))). exact SE.
      * apply B. rewrite SE. reflexivity.
Qed.

(** ** Figure ids *)
Lemma cls_id c : cls_ok (NCls [CS; CI 94; CI 58]) c = id_char c.
Proof. unfold id_char. cbn. rewrite orb_false_r. destruct (isspace c), (c =? 94), (c =? 58); reflexivity. Qed.

Lemma all_forallb' p s : all p s <-> forallb p s = true.
Proof. unfold all. rewrite forallb_forall, Forall_forall. reflexivity. Qed.
Lemma stops_begins p s : stops p s <-> ~ begins p s.
Proof.
  unfold begins. destruct s as [|c r]; cbn.
  - split; [intros _ (? & ? & [=] & _) | auto].
  - split.
    + intros H (c' & r' & [= <- <-] & H'). congruence.
    + intros H. destruct (p c) eqn:E; [|reflexivity]. destruct H. eauto.
Qed.

Lemma fig_id_tail w v : w <> [] -> blanks w -> stops isspace v ->
  mt (RSeq (RPlus (Cls [CS])) (RSeq (RGrp G_id (RPlus (NCls [CS; CI 94; CI 58]))) (RStar AnyNL))) false (w ++ v) []
     (fun _ _ g => Some g)
  = match take_while id_char v with [] => None | id => Some [(G_id, id)] end.
Proof.
  intros Nw Bw Sv. apply all_forallb' in Bw.
  assert (H : mt (RPlus (Cls [CS])) false (w ++ v) []
     (fun b t g => mt (RSeq (RGrp G_id (RPlus (NCls [CS; CI 94; CI 58]))) (RStar AnyNL)) b t g (fun _ _ g => Some g))
     = match take_while id_char v with [] => None | id => Some [(G_id, id)] end); [|exact H].
  rewrite (plus_det _ _ _ _ _ _ cls_space).
  2:{ intros b' y u Hy. cbn [mt]. rewrite cls_id. unfold id_char. rewrite Hy. reflexivity. }
  rewrite take_while_unique, drop_while_unique by assumption.
  destruct w as [|w0 w]; [congruence|].
  destruct (take_while id_char v) as [|i0 i] eqn:T.
  - cbn [mt]. apply take_while_nil in T. destruct v as [|c r]; [reflexivity|]. cbn in T. rewrite cls_id, T. reflexivity.
  - rewrite <- T. apply m_seq, (m_grp_plus _ _ _ _ _ _ _ _ cls_id); [congruence|]. intros b1.
    apply (m_star _ (cls_ok AnyNL)); [reflexivity|]. intros b2. reflexivity.
Qed.

Lemma figure_id_iff t id : figure_id t = Some id <-> title_id t id.
Proof.
  unfold figure_id, re_match, FIG_ID_REGEX. cbn [rseq].
  assert (R : forall u, (forall s, utf8 "Figure" ++ s <> u) -> mt (RSeq (rlit (utf8 "Figure")) (RSeq (RPlus (Cls [CS])) (RSeq (RGrp G_id (RPlus (NCls [CS; CI 94; CI 58]))) (RStar AnyNL)))) true u [] (fun _ _ g => Some g) = None).
  { intros u H. cbn [mt]. apply rlit_none. destruct (startswith (utf8 "Figure") u) eqn:S; [|reflexivity].
    apply startswith_app in S as (s & ->). destruct (H s). reflexivity. }
  assert (L : forall s, mt (RSeq (rlit (utf8 "Figure")) (RSeq (RPlus (Cls [CS])) (RSeq (RGrp G_id (RPlus (NCls [CS; CI 94; CI 58]))) (RStar AnyNL)))) true (utf8 "Figure" ++ s) [] (fun _ _ g => Some g)
     = mt (RSeq (RPlus (Cls [CS])) (RSeq (RGrp G_id (RPlus (NCls [CS; CI 94; CI 58]))) (RStar AnyNL))) false s [] (fun _ _ g => Some g)).
  { intros s. exact (rlit_app (utf8 "Figure") true s [] (fun b t g => mt (RSeq (RPlus (Cls [CS])) (RSeq (RGrp G_id (RPlus (NCls [CS; CI 94; CI 58]))) (RStar AnyNL))) b t g (fun _ _ g => Some g))). }
  split.
  - intros H. destruct (startswith (utf8 "Figure") t) eqn:S.
    + apply startswith_app in S as (s & ->). rewrite L in H.
      rewrite <- (take_drop isspace s) in H.
      destruct (take_while isspace s) as [|w0 w] eqn:W.
      { cbn [app mt grp] in H. pose proof (drop_while_stops isspace s) as D. destruct (drop_while isspace s) as [|c r]; [discriminate|].
        cbn in D. rewrite cls_space, D in H. discriminate. }
      rewrite <- W in H. rewrite fig_id_tail in H.
      * destruct (take_while id_char (drop_while isspace s)) as [|i0 i] eqn:T; [discriminate|]. cbn in H.
        injection H as <-. rewrite <- T. exists (take_while isspace s), (drop_while id_char (drop_while isspace s)).
        split; [rewrite !take_drop; reflexivity|]. split; [congruence|]. split; [apply all_forallb', take_while_all|].
        split; [congruence|]. split; [apply all_forallb', take_while_all | apply stops_begins, drop_while_stops].
      * congruence.
      * apply all_forallb', take_while_all.
      * apply drop_while_stops.
    + exfalso. rewrite R in H; [discriminate|]. intros s <-.
      assert (startswith (utf8 "Figure") (utf8 "Figure" ++ s) = true) by (apply startswith_app; eauto). congruence.
  - intros (w & rest & -> & Nw & Bw & Ni & Bi & Sr). rewrite L. rewrite fig_id_tail; [| assumption | assumption |].
    + rewrite take_while_unique; [|apply all_forallb'; exact Bi | apply stops_begins; exact Sr].
      destruct id as [|i0 i]; [congruence | reflexivity].
    + destruct id as [|i0 i]; [congruence|]. cbn. inversion Bi; subst. unfold id_char in *.
      destruct (isspace i0); [discriminate | reflexivity].
Qed.

Lemma title_id_nonempty t id : title_id t id -> id <> [].
Proof. intros (w & rest & _ & _ & _ & H & _). exact H. Qed.

(** ** Title rows *)
Lemma children_kids_of tag e : children tag e = map fst (kids_of tag e).
Proof. reflexivity. Qed.

Lemma unwrap_spec t : unwrapped t (unwrap_table t).
Proof.
  unfold unwrap_table, unwrapped, nth_child.
  assert (N : (forall v, wraps t v -> False) -> wraps t t \/ t = t /\ forall v, ~ wraps t v) by (intros H; right; split; [reflexivity | exact H]).
  destruct (children t_tr t) as [|tr trs] eqn:E1; cbn [nth_error].
  { apply N. intros v (? & ? & ? & ? & ? & ? & ? & _). congruence. }
  destruct (children t_td tr) as [|td tds] eqn:E2; cbn [nth_error].
  { apply N. intros v (? & ? & ? & ? & ? & ? & ? & ? & _). congruence. }
  destruct (e_kids td) as [|[inner tl] ks] eqn:E3.
  { apply N. intros v (? & ? & ? & ? & ? & ? & ? & ? & ? & _). congruence. }
  destruct (seqb_spec (e_tag inner) t_table) as [T|T].
  - left. exists tr, trs, td, tds, tl, ks. auto.
  - apply N. intros v (? & ? & ? & ? & ? & ? & ? & ? & ? & ?). congruence.
Qed.
Lemma wraps_fun t u v : wraps t u -> wraps t v -> u = v.
Proof. intros (? & ? & ? & ? & ? & ? & ? & ? & ? & ?) (? & ? & ? & ? & ? & ? & ? & ? & ? & ?). congruence. Qed.
Lemma unwrapped_fun t u v : unwrapped t u -> unwrapped t v -> u = v.
Proof.
  intros [H | [-> H]] [H' | [-> H']]; [eapply wraps_fun; eassumption | destruct (H' _ H) | destruct (H _ H') | reflexivity].
Qed.

Lemma remove_first_spec ks : match children t_tr (Elem [] [] [] ks) with
  | [] => True
  | tr :: _ => exists a tl b, ks = a ++ (tr, tl) :: b /\ e_tag tr = t_tr /\ Forall (fun k => e_tag (fst k) <> t_tr) a
               /\ remove_first_tr ks = a ++ b
  end.
Proof.
  unfold children, kids_of. cbn [e_kids]. induction ks as [|[k tl] ks IH]; [exact Logic.I|]. cbn [filter map fst remove_first_tr].
  destruct (seqb_spec (e_tag k) t_tr) as [T|T].
  - cbn [map fst]. exists [], tl, ks. repeat split; [exact T | constructor].
  - destruct (map fst (filter _ ks)) as [|tr r]; [exact Logic.I|]. destruct IH as (a & tl' & b & -> & H1 & H2 & H3).
    exists ((k, tl) :: a), tl', b. split; [reflexivity|]. split; [exact H1|]. split; [constructor; assumption|]. cbn. f_equal. exact H3.
Qed.

Lemma title_id_mentions s id : title_id s id -> mentions s.
Proof. intros (w & rest & -> & _). exists [], (w ++ id ++ rest). reflexivity. Qed.

Lemma classify_spec t :
  match classify t with
  | FNoRow => rowless t
  | FNoTitle => untitled t
  | FNoId title => unidentified t title
  | FFigure m tbl => identified t m tbl
  end.
Proof.
  unfold classify. pose proof (unwrap_spec t) as U. set (u := unwrap_table t) in *. unfold nth_child.
  destruct (children t_tr u) as [|tr trs] eqn:C; cbn [nth_error]; [exists u; auto|].
  assert (TT : title_text t (to_text tr)) by (exists u, tr, trs; auto).
  unfold extract_figure_title. destruct (contains (utf8 "Figure") (to_text tr)) eqn:M.
  2: { exists (to_text tr). split; [exact TT|]. intros K. apply contains_app in K. congruence. }
  apply contains_app in M.
  destruct (figure_id (to_text tr)) as [id|] eqn:F.
  - apply figure_id_iff in F. pose proof (remove_first_spec (e_kids u)) as R.
    change (children t_tr (Elem [] [] [] (e_kids u))) with (children t_tr u) in R. rewrite C in R.
    destruct R as (a & tl & b & R1 & R2 & R3 & R4). exists u, tr, tl, a, b, id. split; [exact U|]. split; [exact R1|]. split; [exact R2|].
    split; [exact R3|]. split; [exact F|]. split; [reflexivity|]. unfold drop_title_row. rewrite R4. reflexivity.
  - split; [exact TT|]. split; [exact M|]. intros id H. apply figure_id_iff in H. congruence.
Qed.

Lemma title_text_fun t s s' : title_text t s -> title_text t s' -> s = s'.
Proof.
  intros (u & tr & trs & U & C & ->) (u' & tr' & trs' & U' & C' & ->). rewrite (unwrapped_fun _ _ _ U U') in C. congruence.
Qed.
Lemma rowless_title t s : rowless t -> title_text t s -> False.
Proof. intros (u & U & C) (u' & tr' & trs' & U' & C' & _). rewrite (unwrapped_fun _ _ _ U U') in C. congruence. Qed.
Lemma identified_title t m tbl : identified t m tbl -> exists title, title_text t title /\ title_id title (m_fig m).
Proof.
  intros (u & tr & tl & a & b & id & U & K & T & A & I & -> & ->). exists (to_text tr). split; [|exact I].
  exists u, tr, (map fst (kids_of t_tr (Elem [] [] [] b))). split; [exact U|]. split; [|reflexivity].
  unfold children, kids_of. rewrite K, filter_app. cbn [filter map fst e_kids].
  rewrite T, seqb_refl, map_app. cbn [map fst].
  assert (E : forall a' : list (elem * str), Forall (fun k => e_tag (fst k) <> t_tr) a' -> filter (fun k => seqb (e_tag (fst k)) t_tr) a' = []).
  { induction 1 as [|k a' N _ IH]; [reflexivity|]. cbn. apply seqb_neq in N. rewrite N. exact IH. }
  rewrite (E a A). reflexivity.
Qed.

(** The four kinds exclude each other, so they say what [classify] returns. *)
Lemma classify_iff t : (forall title, unidentified t title -> classify t = FNoId title)
  /\ (rowless t -> classify t = FNoRow) /\ (untitled t -> classify t = FNoTitle)
  /\ (forall m tbl, identified t m tbl -> classify t = FFigure m tbl).
Proof.
  pose proof (classify_spec t) as S.
  assert (U1 : forall title, unidentified t title -> untitled t -> False).
  { intros title (T & M & _) (s & T' & M'). rewrite (title_text_fun _ _ _ T T') in M. exact (M' M). }
  assert (U2 : forall title m tbl, unidentified t title -> identified t m tbl -> False).
  { intros title m tbl (T & _ & N) I. apply identified_title in I as (s & T' & I). rewrite (title_text_fun _ _ _ T' T) in I. exact (N _ I). }
  assert (U3 : forall m tbl, untitled t -> identified t m tbl -> False).
  { intros m tbl (s & T & N) I. apply identified_title in I as (s' & T' & I). rewrite (title_text_fun _ _ _ T' T) in I. exact (N (title_id_mentions _ _ I)). }
  assert (U4 : forall m tbl, rowless t -> identified t m tbl -> False).
  { intros m tbl R I. apply identified_title in I as (s' & T' & I). exact (rowless_title _ _ R T'). }
  split; [|split; [|split]].
  - intros title H. destruct (classify t) as [| |title'|m tbl].
    + destruct (rowless_title _ _ S (proj1 H)).
    + destruct (U1 _ H S).
    + f_equal. eapply title_text_fun; [exact (proj1 S) | exact (proj1 H)].
    + destruct (U2 _ _ _ H S).
  - intros H. destruct (classify t) as [| |title'|m tbl]; [reflexivity | | |].
    + destruct S as (s & S & _). destruct (rowless_title _ _ H S).
    + destruct (rowless_title _ _ H (proj1 S)).
    + destruct (U4 _ _ H S).
  - intros H. destruct (classify t) as [| |title'|m tbl]; [|reflexivity| |].
    + destruct H as (s & H & _). destruct (rowless_title _ _ S H).
    + destruct (U1 _ S H).
    + destruct (U3 _ _ H S).
  - intros m tbl H. destruct (classify t) as [| |title'|m' tbl'].
    + destruct (U4 _ _ S H).
    + destruct (U3 _ _ S H).
    + destruct (U2 _ _ _ S H).
    + destruct S as (u & tr & tl & a & b & id & U & K & T & A & I & -> & ->), H as (u' & tr' & tl' & a' & b' & id' & U' & K' & T' & A' & I' & -> & ->).
      pose proof (unwrapped_fun _ _ _ U U') as <-. rewrite K in K'.
      assert (E : a = a' /\ (tr, tl) = (tr', tl') /\ b = b').
      { clear K. revert a' A' K'. induction A as [|k a N A IH]; intros a' A' K'.
        - destruct A' as [|k' a' N' A']; [injection K' as -> -> ->; auto | injection K' as <- _; destruct (N' T)].
        - destruct A' as [|k' a' N' A'].
          + injection K' as -> _. destruct (N T').
          + injection K' as <- K'. destruct (IH a' A' K') as (-> & ? & ->). auto. }
      destruct E as (-> & [= -> ->] & ->). apply figure_id_iff in I, I'. replace id' with id by congruence. reflexivity.
Qed.

(** ** Processed figures *)
Lemma identified_iff t m tbl : identified t m tbl <-> classify t = FFigure m tbl.
Proof. split; [apply classify_iff | intros E; pose proof (classify_spec t) as H; rewrite E in H; exact H]. Qed.
Lemma classify_figure t m tbl : classify t = FFigure m tbl ->
  m_fig m <> [] /\ m_parent m = None /\ exists title, m_title m = Some title /\ title_id title (m_fig m).
Proof.
  unfold classify. destruct (nth_child t_tr 0 (unwrap_table t)) as [tr|]; [|discriminate].
  destruct (extract_figure_title tr) as [title|]; [|discriminate].
  destruct (figure_id title) as [id|] eqn:F; [|discriminate]. intros [= <- <-]. cbn.
  apply figure_id_iff in F. split; [eapply title_id_nonempty, F|]. split; [reflexivity|]. eauto.
Qed.

Lemma lookup_In l fig c : lookup_fig l fig = Some c -> exists f, In (f, c) l.
Proof.
  unfold lookup_fig. destruct (find _ l) as [[f c']|] eqn:F; [|discriminate]. intros [= <-].
  apply find_some in F as [F _]. exists f. exact F.
Qed.

Lemma split_named P m tbl x y m' tbl' : sane P -> handled P m tbl x ->
  splits_off x y (m', tbl') -> m_fig m' <> [] /\ m_parent m' = None.
Proof.
  intros SP (_ & hs & _ & CH & _) RE. unfold splits_off in RE.
  destruct (ec_handler (x_cls x)) as [|prefix fig|] eqn:EH.
  - destruct RE.
  - destruct RE as (u & title & _ & _ & RE). injection RE as -> ->. cbn. split; [|reflexivity].
    unfold chosen in CH. destruct (lookup_fig (p_fig_overrides P) (m_fig m)) as [c|] eqn:LK.
    + subst c. apply lookup_In in LK as (f & I). eapply SP; eassumption.
    + destruct CH as [(E & _) | [(E & _) | (E & _)]]; rewrite E in EH; discriminate.
  - destruct RE.
Qed.

Lemma processed_named P tbls m tbl : sane P -> processed P tbls m tbl -> m_fig m <> [].
Proof.
  intros SP H. induction H as [t m tbl _ C | m tbl x rows ok y c key sub _ IH | m tbl x rows ok y m' tbl' _ _ HD _ _ RE].
  - apply identified_iff, classify_figure in C. tauto.
  - cbn. destruct (m_fig m); discriminate.
  - eapply split_named; eassumption.
Qed.

(** ** Every event of a document has an origin *)
Section ORIGIN.
Variable P : parser.
Variable tbls : list elem.
Hypothesis SP : sane P.

Inductive made (t : list event) : entity -> Prop :=
| made_struct m tbl x k fs :
    processed P tbls m tbl -> handled P m tbl x -> ec_kind (x_cls x) = EKStruct k ->
    rows_give x false (fst (row_iter tbl)) fs ->
    (forall l, struct_check (m_fig m) (emitted_order k fs) l -> In (EvLint l) t) ->
    Forall (fun g => exists d, range_linted x d g t) fs ->
    ((forall y, In y (fst (row_iter tbl)) -> children t_th (y_row y) <> [] -> announces_list (y_row y) = false) ->
        Forall (fun g => forall lo hi, sf_range g <> RDyn lo hi) fs) ->
    made t (mkEntity m (BStruct k (emitted_order k fs)))
| made_values m tbl x fs :
    processed P tbls m tbl -> handled P m tbl x -> ec_kind (x_cls x) = EKValues ->
    vrows_give (p_label_overrides P) x (fst (row_iter tbl)) fs ->
    (forall l, value_check (m_fig m) fs l -> In (EvLint l) t) ->
    Forall (fun g => forall l, vf_val g <> lbl_ellipsis ->
              override_of (p_label_overrides P) (x_fig x) (vf_val g) = Some l ->
              vf_label g = l /\ In (row_ev L1007 x (vf_val g)) t) fs ->
    made t (mkEntity m (BValues fs)).

Definition recorded (l : lint) : Prop :=
  wellformed_lint l
  /\ ((l_code l = T1008 /\ exists n, l_fig l = missing_name n)
      \/ exists m tbl, processed P tbls m tbl /\ l_fig l = m_fig m
           /\ (l_code l = T1007 -> lookup_fig (p_fig_overrides P) (m_fig m) = None
               /\ forall hs, table_headers tbl hs -> unsupported hs)).

(** An entry of a check belongs to an emitted entity. *)
Definition explained (l : lint) (t : list event) : Prop :=
  In (l_code l) check_codes -> exists e, In (EvEnt e) t /\ entity_check e l.

Definition origin (e : event) (t : list event) : Prop :=
  match e with EvEnt en => made t en | EvLint l => recorded l /\ explained l t end.

Lemma origin_mono e t t' : incl t t' -> origin e t -> origin e t'.
Proof.
  intros I. destruct e as [l|en].
  - intros [R X]. split; [exact R|]. intros C. destruct (X C) as (e & E1 & E2). exists e. auto.
  - cbn. intros H. destruct H as [m tbl x k fs A B C D V F1 F2 | m tbl x fs A B C D V F1].
    + eapply made_struct; try eassumption; [auto|].
      rewrite Forall_forall in *. intros g Hg. destruct (F1 g Hg) as (d & R). exists d. eapply range_linted_mono; eassumption.
    + eapply made_values; try eassumption; [auto|].
      rewrite Forall_forall in *. intros g Hg l N O. destruct (F1 g Hg l N O) as [L1 L2]. auto.
Qed.

Lemma own_origin m tbl x e t : processed P tbls m tbl -> x_meta x = m -> own x e t -> origin e t.
Proof.
  intros PR <- (l & -> & F & C & W). split.
  - split; [exact W|]. right. exists (x_meta x), tbl.
    split; [exact PR|]. split; [exact F|]. intros E. rewrite E in C. unfold row_code in C. cbn in C.
    repeat (destruct C as [C | C]; [discriminate|]). destruct C.
  - intros K. exfalso. unfold row_code in C. cbn in C, K.
    repeat (destruct C as [C | C]; [rewrite <- C in K; repeat (destruct K as [K | K]; [discriminate|]); destruct K|]). destruct C.
Qed.
Lemma own_safe {A} m tbl x (Q : A -> Prop) c : processed P tbls m tbl -> x_meta x = m ->
  safe (own x) no_assert Q c -> safe origin no_assert Q c.
Proof. intros PR E. apply safe_weaken; [intros; eapply own_origin; eassumption | auto]. Qed.

Section FIG.
Variables (m : meta) (tbl : elem).
Hypothesis PR : processed P tbls m tbl.
Hypothesis IH : forall m' tbl', (esize tbl' < esize tbl)%nat -> processed P tbls m' tbl' ->
  safe origin no_assert T1 (parse_figure P m' tbl').

Lemma nested_safe x y c key : handled P m tbl x -> In y (fst (row_iter tbl)) -> key_of_row x (y_row y) c key ->
  In c (children t_td (y_row y)) ->
  safe origin no_assert T1 (extract_data_sub_table (parse_figure P) (sub_meta (x_fig x) key) c).
Proof.
  intros HD Hy HK Hc. apply safe_iterM; [apply origin_mono | exact I |]. intros sub Hs. apply IH.
  - eapply row_iter_cells; eassumption.
  - assert (E : x_fig x = m_fig m) by (unfold x_fig; rewrite (proj1 HD); reflexivity). rewrite E.
    eapply pr_nested; try eassumption. apply table_rows_ok.
Qed.

Lemma struct_rows_safe x k rows fin : handled P m tbl x -> ec_kind (x_cls x) = EKStruct k ->
  (forall y, In y rows -> In y (fst (row_iter tbl))) ->
  (forall e, fin = Some e -> no_assert e) ->
  forall dyn fields, safe origin no_assert T1 (run_rows (parse_figure P) x rows fin dyn fields).
Proof.
  intros HD K I Hfin. assert (Hx : x_fig x <> []).
  { unfold x_fig. rewrite (proj1 HD). eapply processed_named; eassumption. }
  pose proof (fun A Q c => @own_safe A m tbl x Q c PR (proj1 HD)) as OS.
  induction rows as [|y rows IHr]; intros dyn fields; cbn [run_rows].
  - destruct fin as [e|]; [apply safe_throw, Hfin; reflexivity | apply safe_ret; exact Logic.I].
  - assert (I' : forall y, In y rows -> In y (fst (row_iter tbl))) by (intros; apply I; right; assumption).
    specialize (IHr I'). destruct (contains_th (y_row y)); [apply IHr|].
    apply safe_bind with (Q := T1); [apply origin_mono | | intros [f| |ex] _; try apply IHr; apply safe_ret; exact Logic.I].
    unfold row_step. destruct (extract_fields x (y_row y)) as [[[[rt ct] lt] c]|] eqn:EF.
    + apply extract_fields_some in EF as (ke & le & RC & -> & -> & ->).
      destruct (_ || _).
      * destruct (is_special_case (to_text ke)); [apply safe_ret; exact Logic.I|].
        apply safe_bind with (Q := T1); [apply origin_mono | apply OS, parse_range_own, Hx | intros r _; apply safe_ret; exact Logic.I].
      * apply safe_bind with (Q := fun r => reads_numbers (to_text ke) r \/ reads_formula (to_text ke) r); [apply origin_mono | |].
        -- destruct dyn.
           ++ intros f r f' t E. destruct (OS _ _ _ (parse_dynamic_own x (to_text ke) Hx) _ _ _ _ E) as (A1 & _ & A3).
              split; [exact A1|]. split; [|exact A3]. intros a ->. apply parse_dynamic_inv in E; [|exact Hx]. tauto.
           ++ intros f r f' t E. destruct (OS _ _ _ (parse_range_own x (to_text ke) (to_text ke) Hx) _ _ _ _ E) as (A1 & _ & A3).
              split; [exact A1|]. split; [|exact A3]. intros a ->. apply parse_range_inv in E; [|exact Hx]. tauto.
        -- intros r Hr. apply safe_bind with (Q := T1); [apply origin_mono | apply OS, parse_label_own, Hx | intros lbl _].
           apply safe_bind with (Q := T1); [apply origin_mono | | intros _ _; apply safe_ret; exact Logic.I].
           eapply nested_safe; [exact HD | apply I; left; reflexivity | |].
           ++ unfold key_of_row. rewrite K. exists ke, le, r. split; [exact RC|]. split; [exact Hr | reflexivity].
           ++ destruct RC as (_ & RC & _). eapply nth_error_In, RC.
    + destruct (startswith ELLIPSIS _); [apply safe_ret; exact Logic.I|].
      destruct (startswith (utf8 "note") _); [apply safe_ret; exact Logic.I|].
      destruct (row_err_handler (ec_handler (x_cls x)) y) as [[] ex]; try (apply safe_ret; exact Logic.I).
      apply safe_throw. split; discriminate.
Qed.

Lemma row_loop_fin rows : forall l e, snd (row_loop rows l) = Some e -> e = EValueError.
Proof.
  induction rows as [|y rows IHr]; intros l e; cbn [row_loop]; [discriminate|].
  destruct (contains_th (y_row y)).
  - specialize (IHr l e). destruct (row_loop rows l). exact IHr.
  - match goal with |- snd (match ?b with _ => _ end) = _ -> _ => destruct b as [y'|] end; [|intros [= <-]; reflexivity].
    destruct (store_spans _ _ _) as [l'|]; [|intros [= <-]; reflexivity].
    specialize (IHr (alst_count_decr l') e). destruct (row_loop rows (alst_count_decr l')). exact IHr.
Qed.

Lemma struct_call_safe x k : handled P m tbl x -> ec_kind (x_cls x) = EKStruct k ->
  safe origin no_assert T1 (struct_call (parse_figure P) x k tbl).
Proof.
  intros HD K. assert (Hx : x_fig x <> []).
  { unfold x_fig. rewrite (proj1 HD). eapply processed_named; eassumption. }
  pose proof (fun A Q c => @own_safe A m tbl x Q c PR (proj1 HD)) as OS.
  intros f r f' t. unfold struct_call. destruct (row_iter tbl) as [rows fin] eqn:RI.
  assert (LS : safe origin no_assert T1 (run_rows (parse_figure P) x rows fin false [])).
  { apply struct_rows_safe with (k := k); [exact HD | exact K | rewrite RI; auto |].
    intros e ->. assert (e = EValueError) as ->; [|split; discriminate].
    apply (row_loop_fin (select_rows (e_kids tbl)) []). unfold row_iter in RI. rewrite RI. reflexivity. }
  unfold bind at 1. rewrite struct_loop_run.
  destruct (run_rows (parse_figure P) x rows fin false [] f) as [[[[fs ex]|e|] f1] t1] eqn:E1.
  2: intros [= <- <- <-]; destruct (LS _ _ _ _ E1) as (A1 & _ & A3); split; [exact A1|]; split; [discriminate | intros ? [= <-]; apply A3; reflexivity].
  2: intros [= <- <- <-]; destruct (LS _ _ _ _ E1) as (A1 & _ & _); split; [exact A1|]; split; discriminate.
  destruct (LS _ _ _ _ E1) as (A1 & _ & _).
  destruct (run_rows_inv _ _ _ _ Hx _ _ _ _ _ _ _ E1) as (gs & -> & G & L & D). cbn [app].
  change (match k with KBits => List.rev gs | KBytes => gs end) with (emitted_order k gs).
  (* the checks *)
  destruct (struct_checks x (emitted_order k gs) f1 Hx) as (tv & EV & IV).
  unfold bind at 1. rewrite EV.
  unfold bind, emit.
  assert (TS : exists r2 f2 t2, match ex with Some (m0, t0) => parse_figure P m0 t0 | None => ret tt end f1 = (r2, f2, t2)
     /\ (forall e, In e t2 -> origin e t2) /\ (forall x, r2 = Exn x -> no_assert x)).
  { destruct ex as [[m0 tb0]|].
    - destruct (parse_figure P m0 tb0 f1) as [[r2 f2] t2] eqn:E2. exists r2, f2, t2. split; [reflexivity|].
      apply run_rows_extra in E1 as (y & Hy & _ & RE).
      destruct (IH m0 tb0) with (f := f1) (r := r2) (f' := f2) (t := t2) as (B1 & _ & B3); auto.
      + rewrite (split_size _ _ _ _ RE). apply row_iter_sibs. rewrite RI. exact Hy.
      + apply splits_iff in RE as (n & En & RE). injection En as <-. eapply pr_split; [exact PR | exact HD | apply table_rows_ok | rewrite RI; exact Hy | exact RE].
    - exists (Ok tt), f1, []. split; [reflexivity|]. split; [intros ? [] | discriminate]. }
  destruct TS as (r2 & f2 & t2 & E2 & B1 & B3). rewrite E2. intros [= <- <- <-].
  split; [|split; [intros ? _; exact I | exact B3]].
  intros ev He. apply in_app_or in He as [He | He]; [eapply origin_mono, A1, He; apply incl_appl, incl_refl|].
  apply in_app_or in He as [He | He].
  { apply IV in He as (l & -> & SC). assert (HF : x_fig x = m_fig m) by (unfold x_fig; rewrite (proj1 HD); reflexivity).
    destruct (struct_check_wf _ _ _ Hx SC) as (L1 & L2 & L3). split.
    - split; [exact L3|]. right. exists m, tbl. split; [exact PR|]. split; [congruence|].
      intros E. rewrite E in L2. cbn in L2. repeat (destruct L2 as [L2 | L2]; [discriminate|]). destruct L2.
    - intros _. exists (mkEntity (x_meta x) (BStruct k (emitted_order k gs))).
      split; [apply in_or_app; right; apply in_or_app; right; left; reflexivity|]. exact SC. }
  destruct He as [<- | He]; [|eapply origin_mono, B1, He; apply incl_appr, incl_appr, incl_tl, incl_refl].
  cbn [origin]. rewrite (proj1 HD). eapply made_struct; try eassumption.
  - rewrite RI. exact G.
  - intros l Hl. apply in_or_app. right. apply in_or_app. left. apply IV. exists l. split; [reflexivity|].
    unfold x_fig. rewrite (proj1 HD). exact Hl.
  - rewrite Forall_forall in *. intros g Hg. destruct (L g Hg) as (d & R). exists d. eapply range_linted_mono, R. apply incl_appl, incl_refl.
  - rewrite RI. cbn [fst]. intros NL. apply D; auto.
Qed.

Lemma value_rows_safe x rows fin : handled P m tbl x -> ec_kind (x_cls x) = EKValues ->
  (forall y, In y rows -> In y (fst (row_iter tbl))) ->
  (forall e, fin = Some e -> no_assert e) ->
  forall fields, safe origin no_assert T1 (vrun_rows (parse_figure P) (p_label_overrides P) x rows fin fields).
Proof.
  intros HD K I Hfin. assert (Hx : x_fig x <> []).
  { unfold x_fig. rewrite (proj1 HD). eapply processed_named; eassumption. }
  pose proof (fun A Q c => @own_safe A m tbl x Q c PR (proj1 HD)) as OS.
  induction rows as [|y rows IHr]; intros fields; cbn [vrun_rows].
  - destruct fin as [e|]; [apply safe_throw, Hfin; reflexivity | apply safe_ret; exact Logic.I].
  - assert (I' : forall y, In y rows -> In y (fst (row_iter tbl))) by (intros; apply I; right; assumption).
    specialize (IHr I'). destruct (contains_th (y_row y)); [apply IHr|].
    apply safe_bind with (Q := T1); [apply origin_mono | | intros [f| |] _; try apply IHr; apply safe_ret; exact Logic.I].
    unfold vrow_step. destruct (value_cells_dec x (y_row y)) as [(ke & c & -> & -> & VC) | [NM VC]].
    + destruct (seqb _ _); [apply safe_ret; exact Logic.I|].
      apply safe_bind with (Q := T1); [apply origin_mono | |].
      * destruct (override_of _ _ _).
        -- apply OS. apply safe_bind with (Q := T1); [apply own_mono | | intros _ _; apply safe_ret; exact Logic.I].
           apply own_issue; [exact Hx | rowcode | discriminate | reflexivity | exact Logic.I].
        -- apply OS, extract_value_label_own, Hx.
      * intros lbl _. apply safe_bind with (Q := T1); [apply origin_mono | | intros _ _; apply safe_ret; exact Logic.I].
        eapply nested_safe; [exact HD | apply I; left; reflexivity | |].
        -- unfold key_of_row. rewrite K. exists ke. split; [exact VC | reflexivity].
        -- destruct VC as (_ & VC). eapply nth_error_In, VC.
    + assert (S : safe origin no_assert T1 (let row_txt := lower (to_text (y_row y)) in
        if startswith ELLIPSIS row_txt then ret (VField (mkVField ELLIPSIS ELLIPSIS None))
        else if startswith (utf8 "notes:") row_txt then ret VStop else ret VNone)).
      { cbv zeta. destruct (startswith ELLIPSIS _); [apply safe_ret; exact Logic.I|].
        destruct (startswith (utf8 "notes:") _); apply safe_ret; exact Logic.I. }
      destruct (key_elem x (y_row y)), (content_elem x (y_row y)); [destruct NM | exact S | exact S | exact S].
Qed.

Lemma value_call_safe x : handled P m tbl x -> ec_kind (x_cls x) = EKValues ->
  safe origin no_assert T1 (value_call (parse_figure P) (p_label_overrides P) x tbl).
Proof.
  intros HD K. assert (Hx : x_fig x <> []).
  { unfold x_fig. rewrite (proj1 HD). eapply processed_named; eassumption. }
  pose proof (fun A Q c => @own_safe A m tbl x Q c PR (proj1 HD)) as OS.
  intros f r f' t. unfold value_call. destruct (row_iter tbl) as [rows fin] eqn:RI.
  assert (LS : safe origin no_assert T1 (vrun_rows (parse_figure P) (p_label_overrides P) x rows fin [])).
  { apply value_rows_safe; [exact HD | exact K | rewrite RI; auto |].
    intros e ->. assert (e = EValueError) as ->; [|split; discriminate].
    apply (row_loop_fin (select_rows (e_kids tbl)) []). unfold row_iter in RI. rewrite RI. reflexivity. }
  unfold bind at 1. rewrite value_loop_run.
  destruct (vrun_rows (parse_figure P) (p_label_overrides P) x rows fin [] f) as [[[fs|e|] f1] t1] eqn:E1.
  2: intros [= <- <- <-]; destruct (LS _ _ _ _ E1) as (A1 & _ & A3); split; [exact A1|]; split; [discriminate | intros ? [= <-]; apply A3; reflexivity].
  2: intros [= <- <- <-]; destruct (LS _ _ _ _ E1) as (A1 & _ & _); split; [exact A1|]; split; discriminate.
  destruct (LS _ _ _ _ E1) as (A1 & _ & _).
  destruct (vrun_rows_inv _ _ _ _ _ Hx _ _ _ _ _ E1) as (gs & -> & G & L). cbn [app].
  destruct (value_checks x gs f1 Hx) as (tv & EV & IV).
  unfold bind at 1. rewrite EV.
  unfold emit. intros [= <- <- <-]. split; [|split; [intros ? _; exact I | discriminate]].
  intros ev He. apply in_app_or in He as [He | He]; [eapply origin_mono, A1, He; apply incl_appl, incl_refl|].
  apply in_app_or in He as [He | [<- | []]].
  { apply IV in He as (l & -> & SC). assert (HF : x_fig x = m_fig m) by (unfold x_fig; rewrite (proj1 HD); reflexivity).
    destruct (value_check_wf _ _ _ Hx SC) as (L1 & L2 & L3). split.
    - split; [exact L3|]. right. exists m, tbl. split; [exact PR|]. split; [congruence|].
      intros E. rewrite E in L2. cbn in L2. repeat (destruct L2 as [L2 | L2]; [discriminate|]). destruct L2.
    - intros _. exists (mkEntity (x_meta x) (BValues gs)).
      split; [apply in_or_app; right; apply in_or_app; right; left; reflexivity|]. exact SC. }
  cbn [origin]. rewrite (proj1 HD). eapply made_values; try eassumption.
  - rewrite RI. exact G.
  - intros l Hl. apply in_or_app. right. apply in_or_app. left. apply IV. exists l. split; [reflexivity|].
    unfold x_fig. rewrite (proj1 HD). exact Hl.
  - rewrite Forall_forall in *. intros g Hg l N O. destruct (L g Hg l N O) as [L1 L2]. split; [exact L1|].
    apply in_or_app. left. exact L2.
Qed.

Lemma tbl_issue c ctx : needs_row c = false -> ~ In c check_codes -> code_context c ctx ->
  (c = T1007 -> lookup_fig (p_fig_overrides P) (m_fig m) = None /\ forall hs, table_headers tbl hs -> unsupported hs) ->
  safe origin no_assert T1 (add_issue c (m_fig m) None ctx).
Proof.
  intros NR NC CC H f r f' t. rewrite add_issue_tbl; [|eapply processed_named; eassumption | exact NR].
  intros [= <- <- <-]. split; [|split; [intros; exact I | discriminate]]. intros e [<- | []]. split; [|intros K; destruct (NC K)]. split.
  - split; [eapply processed_named; eassumption|]. split; [apply code_msg_nonempty|]. split; [reflexivity|]. split; [exact CC|].
    intros N. apply needs_row_spec in N. cbn in N. congruence.
  - right. exists m, tbl. split; [exact PR|]. split; [reflexivity | exact H].
Qed.

Lemma fig_error_safe e : no_assert e -> safe origin no_assert T1 (on_fig_error P m e).
Proof.
  intros He. unfold on_fig_error. apply safe_bind with (Q := T1); [apply origin_mono | apply safe_get_flag; intros; exact I | intros b _].
  apply safe_bind with (Q := T1); [apply origin_mono | |].
  - destruct b; [apply safe_ret; exact I|].
    apply safe_bind with (Q := T1); [apply origin_mono | apply safe_set_flag; exact I | intros _ _].
    apply tbl_issue; [reflexivity | intros K; cbn in K; repeat (destruct K as [K | K]; [discriminate|]); destruct K | destruct (m_title m); [right; eexists; reflexivity | left; reflexivity] | discriminate].
  - intros _ _. destruct (m_parent m); [apply safe_throw, He|]. destruct (p_skip P); [apply safe_ret; exact I | apply safe_throw, He].
Qed.

Lemma figure_safe_step : safe origin no_assert T1 (parse_figure P m tbl).
Proof.
  assert (Hf : m_fig m <> []) by (eapply processed_named; eassumption).
  intros f r f' t Ef.
  destruct (parse_figure_cases P m tbl f Hf) as (hs & t0 & body & TH & EH & FC & EF).
  destruct (headers_spec _ _ _ _ _ _ Hf EH) as (hs' & _ & _ & _ & H0). 
  assert (S0 : forall e, In e t0 -> origin e t0).
  { rewrite Forall_forall in H0. intros e He. destruct (H0 e He) as (l & -> & F & C & W).
    split; [|intros K; rewrite C in K; cbn in K; repeat (destruct K as [K | K]; [discriminate|]); destruct K]. split; [exact W|].
    right. exists m, tbl. split; [exact PR|]. split; [exact F|]. rewrite C. discriminate. }
  assert (SB : safe origin no_assert T1 body).
  { destruct FC as [LK UN | c LK CA | x k HD K | x HD K].
    - apply tbl_issue; [reflexivity | intros K; cbn in K; repeat (destruct K as [K | K]; [discriminate|]); destruct K| eexists; reflexivity|]. intros _. split; [exact LK|]. intros hs2 TH2.
      rewrite (table_headers_fun _ _ _ TH2 TH). exact UN.
    - apply safe_throw. split; discriminate.
    - apply safe_catch with (E := no_assert); [apply origin_mono | apply struct_call_safe; assumption | apply fig_error_safe].
    - apply safe_catch with (E := no_assert); [apply origin_mono | apply value_call_safe; assumption | apply fig_error_safe]. }
  rewrite EF in Ef. injection Ef as <- <- <-. destruct (body false) as [[rb fb] tb] eqn:EB. cbn [fst snd].
  destruct (SB _ _ _ _ EB) as (B1 & B2 & B3). split; [|split; assumption].
  intros e He. apply in_app_or in He as [He | He]; [eapply origin_mono, S0, He; apply incl_appl, incl_refl | eapply origin_mono, B1, He; apply incl_appr, incl_refl].
Qed.
End FIG.

Lemma figure_safe : forall n m tbl, (esize tbl < n)%nat -> processed P tbls m tbl -> safe origin no_assert T1 (parse_figure P m tbl).
Proof.
  induction n as [|n IHn]; intros m tbl H PR; [lia|]. apply figure_safe_step; [exact PR|].
  intros m' tbl' H' PR'. apply IHn; [lia | exact PR'].
Qed.

Definition doc_exn (e : exn) : Prop := no_assert e.

Lemma missing_named n : missing_name n <> [].
Proof. discriminate. Qed.

Lemma tables_safe rest : (forall t, In t rest -> In t tbls) -> forall n, safe origin no_assert T1 (parse_tables P n rest).
Proof.
  induction rest as [|t rest IHr]; intros I n; cbn [parse_tables]; [apply safe_ret; exact Logic.I|].
  assert (I' : forall t, In t rest -> In t tbls) by (intros; apply I; right; assumption).
  destruct (classify t) as [| |title|m tbl] eqn:C.
  - apply safe_throw. split; discriminate.
  - apply IHr, I'.
  - apply safe_bind with (Q := T1); [apply origin_mono | | intros _ _; apply IHr, I'].
    intros f r f' t1. rewrite add_issue_tbl; [|apply missing_named | reflexivity]. intros [= <- <- <-].
    split; [|split; [intros; exact Logic.I | discriminate]]. intros e [<- | []]. split; [|intros K; cbn in K; repeat (destruct K as [K | K]; [discriminate|]); destruct K]. split.
    + split; [apply missing_named|]. split; [apply code_msg_nonempty|]. split; [reflexivity|]. split; [cbn; eauto|].
      intros N. apply needs_row_spec in N. discriminate.
    + left. split; [reflexivity | exists n; reflexivity].
  - apply safe_bind with (Q := T1); [apply origin_mono | | intros _ _; apply IHr, I'].
    apply figure_safe with (n := S (esize tbl)); [lia|]. eapply pr_top; [|apply identified_iff; exact C]. apply I. left. reflexivity.
Qed.
End ORIGIN.

(** The origin of everything in the output of a document. *)
Theorem doc_origin P doc r t : sane P -> parse_doc P doc = (r, t) ->
  (forall e, In (EvEnt e) t -> made P (figures doc) t e)
  /\ (forall l, In (EvLint l) t -> recorded P (figures doc) l /\ explained l t)
  /\ r <> Exn EAssertion /\ r <> Exn EKeyError.
Proof.
  intros SP. unfold parse_doc. destruct (parse_tables P 0 (figures doc) false) as [[r' f'] t'] eqn:E. intros [= <- <-].
  destruct (tables_safe P (figures doc) SP (figures doc) (fun _ H => H) 0 _ _ _ _ E) as (A & _ & B).
  split; [intros e He; exact (A _ He)|]. split; [intros l Hl; exact (A _ Hl)|].
  split; intros ->; destruct (B _ eq_refl) as [B1 B2]; contradiction.
Qed.
