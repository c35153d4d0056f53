(** Properties of what a whole document produces, stated on the result of [parse_doc]:
    C04 (partition), C07 (order of fields), C11 (T1007), C27 (well-formed lint), C29 (figure
    id), C38 (list mode), C39 (special rows), C40 (overrides), and C03, C06, C08, C09, C16, C21
    for the emitted entities.
    [parse_doc P doc] is (outcome, recorded and emitted events in order).  The vocabulary is in
    SpecTable.v and SpecDoc.v. *)
From Coq Require Import NArith ZArith List Bool String Lia.
From Verif Require Import PyTables PyStr PyStrFacts Xml Json Lint RowIter Helpers Extract Document
  MFacts SpecText SpecFields SpecLabel SpecHeader SpecRows SpecTable SpecDoc SpecIter IterProofs
  RangeProofs LabelProofs ValidateProofs RowProofs HeaderProofs TableProofs SizeProofs DocProofs
  Prop_Validate Prop_Label SpecNames NameProofs CellRead.
Import ListNotations.
Local Open Scope list_scope.
Local Open Scope N_scope.

(** All parsers the program can choose are [sane]. *)
Theorem sane_parsers skip key rev : sane (get_parser skip key rev).
Proof.
  unfold get_parser. destruct (find _ QUIRKS_MAP) as [[k [lo fo]]|] eqn:F; [|intros ? ? ? ? []].
  apply find_some in F as [F _]. cbn [QUIRKS_MAP In] in F.
  repeat (destruct F as [F | F]; [injection F as <- <- <-; intros fig c prefix fig' H1 H2; cbn in H1;
    repeat (destruct H1 as [H1 | H1]; [injection H1 as <- <-; cbn in H2; (discriminate || (injection H2 as <- <-; discriminate))|]); destruct H1|]).
  destruct F.
Qed.

(** ** The rows determine the fields *)
Lemma reads_formula_fun t r r' : reads_formula t r -> reads_formula t r' -> r = r'.
Proof.
  intros H H'. destruct H as [a b F | N], H' as [a' b' F' | N']; try reflexivity.
  - apply formula_range_split in F, F'. congruence.
  - destruct (N' _ _ F).
  - destruct (N _ _ F').
Qed.
Lemma startswith_fun p q a b : p ++ a = q ++ b -> p <> [] -> hd 0 p <> hd 0 q -> q <> [] -> False.
Proof. destruct p, q; cbn; try congruence. Qed.

Ltac same_cells :=
  match goal with
  | H : row_cells ?x ?r _ _ _, H' : row_cells ?x ?r _ _ _ |- _ =>
      destruct (row_cells_fun _ _ _ _ _ _ _ _ H H') as (-> & -> & ->); clear H'
  | H : forall k c l, ~ row_cells ?x ?r k c l, H' : row_cells ?x ?r _ _ _ |- _ => destruct (H _ _ _ H')
  end.
Lemma special_in t : In (upper t) [lbl_reserved; lbl_obsolete; lbl_ellipsis] -> special t.
Proof. unfold special. cbn. intros [H | [H | [H | []]]]; rewrite <- H; auto. Qed.

Lemma row_gives_fun x dyn y o o' : row_gives x dyn y o -> row_gives x dyn y o' -> o = o'.
Proof.
  intros H H'. destruct H, H'; repeat same_cells; try contradiction; try reflexivity;
    try match goal with H : special _ \/ special _ |- _ => destruct H; contradiction end;
    try (exfalso; match goal with H : In ?l _, E : upper _ = ?l, N : ~ special _ |- _ => apply N, special_in; rewrite E; exact H end);
    try (exfalso; subst; contradiction);
    try (exfalso; match goal with E : lower _ = _ ++ _, N : forall u, lower _ <> _ |- _ => exact (N _ E) end).
  - assert (r = r0) as -> by (destruct dyn; [eapply reads_formula_fun | eapply reads_numbers_fun]; eassumption).
    assert (raw = raw0) as -> by (eapply source_fun; eassumption).
    assert (lbl = lbl0) as -> by (eapply normal_fun; eassumption). assert (b = b0) as -> by (eapply kept_fun; eassumption). reflexivity.
  - assert (r = r0) as -> by (eapply reads_numbers_fun; eassumption). subst. reflexivity.
Qed.
Lemma row_ends_gives x dyn y o : row_ends x y -> row_gives x dyn y o -> False.
Proof.
  intros H H'. destruct H, H'; repeat same_cells; try congruence;
    try (match goal with E : lower _ = _ ++ _, N : forall u, lower _ <> _ |- _ => exact (N _ E) end);
    try (match goal with T : tolerated _ _, O : splits_off _ _ _ |- _ => exact (tolerated_splits _ _ _ T O) end).
  rewrite H0 in H2. discriminate.
Qed.

(** The fields a table gives are determined by its rows. *)
Theorem C07_fields_determined x rows : forall dyn fs fs',
  rows_give x dyn rows fs -> rows_give x dyn rows fs' -> fs = fs'.
Proof.
  induction rows as [|y rows IH]; intros dyn fs fs' H H'; inversion H; subst; inversion H'; subst; try contradiction; try reflexivity;
    try (exfalso; eapply row_ends_gives; eassumption);
    try (eapply IH; eassumption);
    repeat match goal with A : row_gives _ _ _ ?o, B : row_gives _ _ _ ?o' |- _ =>
      pose proof (row_gives_fun _ _ _ _ _ A B); clear B end; try discriminate.
  match goal with H : Some _ = Some _ |- _ => injection H as -> end. f_equal. eapply IH; eassumption.
Qed.
Print Assumptions C07_fields_determined.

Section DOC.
Variables (P : parser) (doc : elem) (r : res unit) (t : list event).
Hypothesis SP : sane P.
Hypothesis RUN : parse_doc P doc = (r, t).

Lemma struct_made m k gs : In (EvEnt (mkEntity m (BStruct k gs))) t ->
  exists tbl x fs, processed P (figures doc) m tbl /\ handled P m tbl x /\ ec_kind (x_cls x) = EKStruct k
    /\ rows_give x false (fst (row_iter tbl)) fs /\ gs = emitted_order k fs
    /\ (forall l, struct_check (m_fig m) gs l -> In (EvLint l) t)
    /\ Forall (fun g => exists d, range_linted x d g t) gs
    /\ x_fig x = m_fig m /\ x_fig x <> [].
Proof.
  intros H. apply (proj1 (doc_origin _ _ _ _ SP RUN)) in H. inversion H; subst.
  exists tbl, x, fs. repeat (split; [assumption|]). split; [reflexivity|]. split; [assumption|].
  assert (E : x_fig x = m_fig m) by (unfold x_fig; match goal with H : handled _ _ _ _ |- _ => rewrite (proj1 H) end; reflexivity).
  split.
  - destruct k; cbn [emitted_order]; [apply Forall_rev|]; assumption.
  - split; [exact E|]. rewrite E. eapply processed_named; eassumption.
Qed.

(** C07: the fields of a bytes entity are those its rows give, in the order of the rows; of a
    bits entity, in exactly the opposite order. *)
Theorem C07_field_order m k gs : In (EvEnt (mkEntity m (BStruct k gs))) t ->
  exists tbl x rows ok fs, processed P (figures doc) m tbl /\ handled P m tbl x /\ ec_kind (x_cls x) = EKStruct k
    /\ table_rows tbl rows ok /\ rows_give x false rows fs
    /\ gs = match k with KBytes => fs | KBits => rev fs end.
Proof.
  intros H. destruct (struct_made m k gs H) as (tbl & x & fs & A & B & C & D & E & _). exists tbl, x, (fst (row_iter tbl)), (ended (snd (row_iter tbl))), fs.
  do 3 (split; [assumption|]). split; [apply table_rows_ok|]. split; [exact D|]. rewrite E. destruct k; reflexivity.
Qed.

(** Value tables come out in the order of the rows. *)
Theorem C07_value_order m gs : In (EvEnt (mkEntity m (BValues gs))) t ->
  exists tbl x rows ok, processed P (figures doc) m tbl /\ handled P m tbl x /\ ec_kind (x_cls x) = EKValues
    /\ table_rows tbl rows ok /\ vrows_give (p_label_overrides P) x rows gs.
Proof.
  intros H. apply (proj1 (doc_origin _ _ _ _ SP RUN)) in H. inversion H; subst. exists tbl, x, (fst (row_iter tbl)), (ended (snd (row_iter tbl))). pose proof (table_rows_ok tbl). auto 8.
Qed.

(** C04: a struct entity with numeric ranges only, and none of T1001, T1002, T1004, R1002 under
    its figure id, is contiguous, and its fields partition the offsets they span. *)
Theorem C04_document m k gs : In (EvEnt (mkEntity m (BStruct k gs))) t ->
  Forall (fun g => exists lo hi, numeric g lo hi) gs ->
  (forall l, In (EvLint l) t -> l_fig l = m_fig m -> ~ In (l_code l) [T1001; T1002; T1004; R1002]) ->
  contiguous gs /\ partition gs /\ Forall (fun g => exists lo hi, sf_range g = RInt lo hi /\ (lo <= hi)%Z) gs.
Proof.
  intros H NUM NL. destruct (struct_made m k gs H) as (tbl & x & fs & _ & _ & _ & _ & _ & CK & LI & XF & Hx).
  assert (LE : Forall (fun g => exists lo hi, numeric g lo hi /\ (lo <= hi)%Z) gs).
  { rewrite Forall_forall in *. intros g Hg. destruct (NUM g Hg) as (lo & hi & N1 & N2). exists lo, hi.
    split; [split; assumption|]. destruct (Z.le_gt_cases lo hi) as [L | L]; [exact L|]. exfalso.
    destruct (LI g Hg) as (d & R & _). destruct (R lo hi N2 L) as (key & K).
    refine (NL _ K XF _). cbn. tauto. }
  destruct (struct_checks x gs false Hx) as (evs & EV & IV).
  assert (C : contiguous gs /\ partition gs).
  { apply (clean_partition x gs false evs Hx EV LE). intros e He. apply IV in He as (l & [= ->] & SC).
    rewrite XF in SC. pose proof (CK l SC) as L. assert (LF : l_fig l = m_fig m).
    { rewrite XF in Hx. apply (struct_check_wf _ _ _ Hx SC). }
    pose proof (NL l L LF) as N. cbn in N. repeat split; intros E; apply N; rewrite E; tauto. }
  destruct C as [C1 C2]. split; [exact C1|]. split; [exact C2|].
  eapply Forall_impl; [|exact LE]. intros g (lo & hi & (_ & N2) & L). exists lo, hi. auto.
Qed.

(** C03, C06, C08, C09: the entries with codes T1001, T1002, T1004, L1002 and V1002 are exactly
    those that [entity_check] calls for in the emitted entities. *)
Theorem C03_document l :
  (In (EvLint l) t /\ In (l_code l) [T1001; T1002; T1004; L1002; V1002])
  <-> exists e, In (EvEnt e) t /\ entity_check e l.
Proof.
  destruct (doc_origin _ _ _ _ SP RUN) as (OE & OL & _). split.
  - intros [H C]. destruct (OL l H) as [_ X]. apply X, C.
  - intros (e & He & CK). pose proof (OE e He) as M. destruct M as [m tbl x k fs PR HD K G V _ _ | m tbl x fs PR HD K G V _].
    + pose proof (processed_named _ _ _ _ SP PR) as Hf. split; [apply V; exact CK|]. apply (struct_check_wf _ _ _ Hf CK).
    + pose proof (processed_named _ _ _ _ SP PR) as Hf. split; [apply V; exact CK|]. apply (value_check_wf _ _ _ Hf CK).
Qed.

(** C27: every recorded issue is well formed, and processing never ends with a failed
    assertion. *)
Theorem C27_wellformed :
  (forall l, In (EvLint l) t -> wellformed_lint l) /\ r <> Exn EAssertion.
Proof.
  destruct (doc_origin _ _ _ _ SP RUN) as (_ & OL & A & _). split; [|exact A].
  intros l Hl. apply (OL l Hl).
Qed.

(** C27: and it is recorded under the id of a processed figure, or of one without id. *)
Theorem C27_figure_id l : In (EvLint l) t ->
  (l_code l = T1008 /\ exists n, l_fig l = missing_name n)
  \/ exists m tbl, processed P (figures doc) m tbl /\ l_fig l = m_fig m.
Proof.
  intros Hl. destruct (doc_origin _ _ _ _ SP RUN) as (_ & OL & _). destruct (OL l Hl) as [(_ & [H | (m & tbl & H1 & H2 & _)]) _]; [auto|].
  right. eauto.
Qed.

(** C11: T1007 is only recorded under the id of a figure without own extractor whose headers
    no extractor applies to. *)
Theorem C11_skipped_only l : In (EvLint l) t -> l_code l = T1007 ->
  exists m tbl, processed P (figures doc) m tbl /\ l_fig l = m_fig m
    /\ lookup_fig (p_fig_overrides P) (m_fig m) = None
    /\ forall hs, table_headers tbl hs -> unsupported hs.
Proof.
  intros Hl C. destruct (doc_origin _ _ _ _ SP RUN) as (_ & OL & _).
  destruct (OL l Hl) as [(_ & [[H _] | (m & tbl & H1 & H2 & H3)]) _]; [congruence|].
  destruct (H3 C) as [H4 H5]. exists m, tbl. auto.
Qed.

(** Is list mode on after these rows? *)
Definition list_mode (A : list yrow) : Prop :=
  exists z, In z A /\ children t_th (y_row z) <> [] /\ exists a b, wide_text (y_row z) = a ++ utf8 "List" ++ b.

Lemma list_mode_dec A :
  (existsb (fun z => contains_th (y_row z) && announces_list (y_row z)) A = true <-> list_mode A).
Proof.
  rewrite existsb_exists. unfold list_mode. split; intros (z & H1 & H2); exists z.
  - apply andb_true_iff in H2 as [H2 H3]. split; [exact H1|]. split; [|apply announces_iff, H3].
    intros E. apply contains_th_children in E. congruence.
  - split; [exact H1|]. destruct H2 as [H2 H3]. apply announces_iff in H3. rewrite H3, andb_true_r.
    apply not_false_iff_true. rewrite contains_th_children. exact H2.
Qed.

(** C38, C39: what a data row with all its cells contributes to the emitted struct entity, at
    its place among the fields of the other rows. *)
Theorem C39_row m kd gs : In (EvEnt (mkEntity m (BStruct kd gs))) t ->
  exists tbl x rows ok fs, processed P (figures doc) m tbl /\ handled P m tbl x
  /\ table_rows tbl rows ok /\ rows_give x false rows fs /\ gs = emitted_order kd fs /\
  forall A y B k c l,
    rows = A ++ y :: B ->
    children t_th (y_row y) = [] -> row_cells x (y_row y) k c l ->
    (forall z, In z A -> children t_th (y_row z) = [] -> ~ row_ends x z) ->
    exists fa o fb, fs = fa ++ o ++ fb /\ rows_give x false A fa
      /\ (special (to_text k) -> o = [])
      /\ (~ special (to_text k) ->
          (forall lbl, In lbl [lbl_reserved; lbl_obsolete; lbl_ellipsis] -> upper (to_text c) = lbl ->
             exists rg, reads_numbers (to_text k) rg /\ o = [mkSField lbl rg None])
          /\ (~ In (upper (to_text c)) [lbl_reserved; lbl_obsolete; lbl_ellipsis] ->
              special (to_text l) \/ special (to_text c) -> o = [])
          /\ (~ special (to_text l) -> ~ special (to_text c) ->
              exists rg raw lbl b, o = [mkSField (lower lbl) rg b]
                /\ label_source (x_content x =? x_label x)%nat (to_text l) raw /\ normal raw lbl
                /\ kept_brief (to_text c) b
                /\ (list_mode A -> reads_formula (to_text k) rg)
                /\ (~ list_mode A -> reads_numbers (to_text k) rg))).
Proof.
  intros H. destruct (struct_made m kd gs H) as (tbl & x & fs & PR & HD & _ & G & -> & _).
  exists tbl, x, (fst (row_iter tbl)), (ended (snd (row_iter tbl))), fs.
  split; [exact PR|]. split; [exact HD|]. split; [apply table_rows_ok|]. split; [exact G|]. split; [reflexivity|].
  intros A y B k c l RI TH RC NE. rewrite RI in G.
  assert (NY : ~ row_ends x y) by (intros [u N _ | ex N _ _ _]; exact (N _ _ _ RC)).
  destruct (rows_give_app _ _ _ _ _ _ G TH NE NY) as (fa & o & fb & -> & GA & GY & LO).
  exists fa, o, fb. split; [reflexivity|]. split; [exact GA|].
  assert (LM := list_mode_dec A). cbn [orb] in GY.
  destruct (existsb _ A) eqn:EX; inversion GY as [k' c' l' rg raw lbl b RC' S1 S2 S3 RR LS NL KB EO | k' c' l' RC' S1 EO | k' c' l' rg lbl RC' S1 RR IL EL EO | k' c' l' rg RC' S1 RR SS NI EO | u N _ EO | N _ _ _ EO];
    try (destruct (N _ _ _ RC)); destruct (row_cells_fun _ _ _ _ _ _ _ _ RC RC') as (-> & -> & ->);
    (destruct o as [|g o]; [try discriminate | first [discriminate | injection EO as <-; destruct o; [|cbn in LO; lia]]]).
  all: split; [first [intros; contradiction | intros; reflexivity]|]; intros NS; try contradiction.
  all: split; [|split].
  all: try (intros lbl' I' E'; exfalso; apply S3, special_in; rewrite E'; exact I').
  all: try (intros _ [? | ?]; contradiction).
  all: try (intros _ _; exists rg, raw, lbl, b; split; [reflexivity|]; split; [exact LS|]; split; [exact NL|]; split; [exact KB|]; split; intros X; [exact RR || (apply LM in X; discriminate) | exact RR || (destruct X; apply LM; reflexivity)]).
  all: try (intros lbl' I' E'; assert (lbl' = lbl) as -> by congruence; exists rg; split; [exact RR | reflexivity]).
  all: try (intros NI; exfalso; apply NI; rewrite EL; exact IL).
  all: try (intros N1 N2; exfalso; apply N2, special_in; rewrite EL; exact IL).
  all: try (intros; reflexivity).
  all: try (intros lbl' I' E'; exfalso; apply NI; rewrite E'; exact I').
  all: try (intros N1 N2; exfalso; destruct SS; contradiction).
Qed.

(** C38: outside list mode no range is emitted as a formula; in a table without a 'List' header
    row every range is a number range, or a text recorded as R1001. *)
Theorem C38_no_list m kd gs : In (EvEnt (mkEntity m (BStruct kd gs))) t ->
  exists tbl x rows ok fs, processed P (figures doc) m tbl /\ handled P m tbl x
    /\ table_rows tbl rows ok /\ rows_give x false rows fs /\ gs = emitted_order kd fs /\
    (~ list_mode rows ->
     Forall (fun g => (exists lo hi, sf_range g = RInt lo hi)
                      \/ exists s key, sf_range g = RText s
                           /\ In (EvLint (row_lint R1001 (m_fig m) key [])) t) gs).
Proof.
  intros H. pose proof (proj1 (doc_origin _ _ _ _ SP RUN) _ H) as M. inversion M as [m' tbl x k fs PR HD K G V LI ND | ]; subst.
  exists tbl, x, (fst (row_iter tbl)), (ended (snd (row_iter tbl))), fs.
  split; [exact PR|]. split; [exact HD|]. split; [apply table_rows_ok|]. split; [exact G|]. split; [reflexivity|]. intros NL.
  assert (XF : x_fig x = m_fig m) by (unfold x_fig; rewrite (proj1 HD); reflexivity).
  assert (F : Forall (fun g => (exists lo hi, sf_range g = RInt lo hi)
                      \/ exists s key, sf_range g = RText s
                           /\ In (EvLint (row_lint R1001 (m_fig m) key [])) t) fs).
  { specialize (ND (fun y Hy Th => match announces_list (y_row y) as b return (announces_list (y_row y) = b -> b = false) with
       | true => fun E => match NL (ex_intro _ y (conj Hy (conj Th (proj1 (announces_iff _) E)))) with end | false => fun _ => eq_refl end eq_refl)).
    rewrite Forall_forall in *. intros g Hg. destruct (LI g Hg) as (d & _ & L1 & _). destruct (sf_range g) as [lo hi|lo hi|s] eqn:R.
    - left. eauto.
    - destruct (ND g Hg lo hi R).
    - right. destruct (L1 s eq_refl) as (key & K1). exists s, key. split; [reflexivity|]. unfold row_ev in K1. rewrite XF in K1. exact K1. }
  destruct kd; cbn [emitted_order]; [apply Forall_rev|]; exact F.
Qed.

(** C38: every range emitted as plain text is recorded as R1001. *)
Theorem C38_text_reported m kd gs g s : In (EvEnt (mkEntity m (BStruct kd gs))) t ->
  In g gs -> sf_range g = RText s -> exists key, In (EvLint (row_lint R1001 (m_fig m) key [])) t.
Proof.
  intros H Hg R. destruct (struct_made m kd gs H) as (tbl & x & fs & _ & _ & _ & _ & _ & _ & LI & XF & _).
  rewrite Forall_forall in LI. destruct (LI g Hg) as (d & _ & L1 & _). destruct (L1 s R) as (key & K).
  exists key. unfold row_ev in K. rewrite XF in K. exact K.
Qed.

(** C40: a value with a configured override carries the override as its label, and L1007 is
    recorded for its row. *)
Theorem C40_override m gs g l : In (EvEnt (mkEntity m (BValues gs))) t -> In g gs ->
  overridden (p_label_overrides P) (m_fig m) (vf_val g) l -> vf_val g <> lbl_ellipsis ->
  vf_label g = l /\ In (EvLint (row_lint L1007 (m_fig m) (vf_val g) [])) t.
Proof.
  intros H Hg O N. pose proof (proj1 (doc_origin _ _ _ _ SP RUN) _ H) as M.
  inversion M as [ | m' tbl x fs PR HD K G V LI]; subst.
  assert (XF : x_fig x = m_fig m) by (unfold x_fig; rewrite (proj1 HD); reflexivity).
  rewrite Forall_forall in LI. rewrite <- XF in O. apply override_some in O. destruct (LI g Hg l N O) as [L1 L2]. split; [exact L1|].
  unfold row_ev in L2. rewrite XF in L2. exact L2.
Qed.

(** C16: an emitted brief is short, does not begin with a space, and is a piece of the text of
    the content cell of its row. *)
Theorem C16_document m kd gs g b : In (EvEnt (mkEntity m (BStruct kd gs))) t ->
  In g gs -> sf_brief g = Some b ->
  N.of_nat (List.length b) <= 60 /\ b <> [] /\ ~ begins (is_char 32) b
  /\ exists tbl x rows ok y k c l, processed P (figures doc) m tbl /\ handled P m tbl x /\ table_rows tbl rows ok /\ In y rows
       /\ row_cells x (y_row y) k c l /\ piece_of b (to_text c) /\ In 58 (to_text c).
Proof.
  intros H Hg HB. destruct (struct_made m kd gs H) as (tbl & x & fs & PR & HD & _ & G & -> & _).
  assert (Hg' : In g fs) by (destruct kd; cbn in Hg; [apply in_rev|]; exact Hg). clear Hg.
  assert (K : exists y k c l, In y (fst (row_iter tbl)) /\ row_cells x (y_row y) k c l /\ kept_brief (to_text c) (Some b)).
  { clear - G Hg' HB. induction G as [dyn | dyn y rest fs TH G IH | dyn y rest f fs TH RG G IH | dyn y rest fs TH RG G IH | dyn y rest TH RE]; [destruct Hg' | | | |destruct Hg'].
    - destruct (IH Hg') as (y' & k & c & l & A & B). exists y', k, c, l. split; [right; exact A | exact B].
    - destruct Hg' as [-> | Hg'].
      + inversion RG; subst; try discriminate. exists y, k, c, l. split; [left; reflexivity|]. split; [assumption|]. cbn in HB. subst. assumption.
      + destruct (IH Hg') as (y' & k & c & l & A & B). exists y', k, c, l. split; [right; exact A | exact B].
    - destruct (IH Hg') as (y' & k & c & l & A & B). exists y', k, c, l. split; [right; exact A | exact B]. }
  destruct K as (y & k & c & l & A & B & C). apply kept_iff in C. symmetry in C.
  destruct (content_extract_brief (to_text c) BRIEF_MAXLEN) as [[|ch b']|] eqn:EB; try discriminate.
  injection C as <-. destruct (C16_brief _ _ EB) as (B1 & B2 & B3 & B4).
  split; [exact B1|]. split; [discriminate|]. split; [exact B3|]. exists tbl, x, (fst (row_iter tbl)), (ended (snd (row_iter tbl))), y, k, c, l.
  pose proof (table_rows_ok tbl). auto 9.
Qed.

(** C21: if no L1004 is recorded under the id of a struct entity, each of its labels is one of
    the special words, or an identifier (apart from the listed exceptions). *)
Theorem C21_document m kd gs g : In (EvEnt (mkEntity m (BStruct kd gs))) t -> In g gs ->
  (forall l, In (EvLint l) t -> l_fig l = m_fig m -> l_code l <> L1004) ->
  ~ dotted (sf_label g) -> ~ ellipsis_text (sf_label g) -> ~ In 10 (sf_label g) -> ~ In 775 (sf_label g) ->
  In (sf_label g) [lbl_reserved; lbl_obsolete]
  \/ (identifier (sf_label g) /\ ((forall c, In c (sf_label g) -> c < 128) -> c_identifier (sf_label g))).
Proof.
  intros H Hg NL ND NE N1 N2. destruct (struct_made m kd gs H) as (tbl & x & fs & _ & _ & _ & _ & _ & _ & LI & XF & Hx).
  rewrite Forall_forall in LI. destruct (LI g Hg) as (d & _ & _ & _ & [L | (txt & key & evs & PL & IE)]).
  - left. cbn in L. destruct L as [L | [L | [L | []]]]; [left; exact L | right; left; exact L|].
    exfalso. apply NE. exists []. split; [symmetry; exact L | constructor].
  - right. apply (C21_identifiers x txt key false _ _ _ Hx (PL false)); try assumption.
    intros e He. apply NL; [apply IE; exact He|].
    destruct (parse_label_own x txt key Hx _ _ _ _ (PL false)) as (O & _). destruct (O _ He) as (l' & [= <-] & F & _).
    rewrite F. exact XF.
Qed.
End DOC.
Print Assumptions C07_field_order.
Print Assumptions C07_value_order.
Print Assumptions C04_document.
Print Assumptions C03_document.
Print Assumptions C27_wellformed.
Print Assumptions C27_figure_id.
Print Assumptions C11_skipped_only.
Print Assumptions C39_row.
Print Assumptions C38_no_list.
Print Assumptions C38_text_reported.
Print Assumptions C40_override.
Print Assumptions C16_document.
Print Assumptions C21_document.

(** C29: the id read from a title. *)
Theorem C29_figure_id title id : figure_id title = Some id <-> title_id title id.
Proof. apply figure_id_iff. Qed.
Print Assumptions C29_figure_id.

(** C40: a row with an override: its only own event is L1007; neither its label cell nor the
    label patterns play a role. *)
Theorem C40_no_extraction parse ov x y rest fin fields f k c l :
  x_fig x <> [] -> children t_th (y_row y) = [] -> value_cells x (y_row y) k c ->
  lower (to_text k) <> lbl_ellipsis -> overridden ov (x_fig x) (lower (to_text k)) l ->
  let fld := mkVField (lower (to_text k)) l (content_extract_brief (to_text c) BRIEF_MAXLEN) in
  let '(r1, f1, t1) := extract_data_sub_table parse (sub_meta (x_fig x) (lower (to_text k))) c f in
  let '(r2, f2, t2) := match r1 with
                       | Ok _ => value_loop parse ov x rest fin (fields ++ [fld]) f1
                       | Exn e => (Exn e, f1, []) | OutOfFuel => (OutOfFuel, f1, []) end in
  value_loop parse ov x (y :: rest) fin fields f
  = (r2, f2, EvLint (row_lint L1007 (x_fig x) (lower (to_text k)) []) :: t1 ++ t2).
Proof.
  intros Hx TH (VC1 & VC2) NE OV. apply override_some in OV. apply contains_th_children in TH. cbn [value_loop].
  rewrite TH. unfold key_elem, content_elem, nth_child. rewrite VC1, VC2.
  apply seqb_neq in NE. change ELLIPSIS with lbl_ellipsis. rewrite NE, OV. cbv zeta.
  unfold issue. unfold bind at 1. unfold bind at 1. rewrite add_issue_row by exact Hx. unfold ret at 1. cbn [app].
  unfold bind at 1. unfold sub_meta. cbn [app].
  destruct (extract_data_sub_table parse _ c f) as [[[u|e|] f1] t1]; cbn [app].
  - destruct (value_loop _ _ _ _ _ _ _) as [[r2 f2] t2]. reflexivity.
  - rewrite app_nil_r. reflexivity.
  - rewrite app_nil_r. reflexivity.
Qed.
Print Assumptions C40_no_extraction.

(** ** A concrete document: the hypotheses are met and the outcomes are as claimed *)
Local Open Scope string_scope.
Definition d_cell (s : string) : kid := (Elem t_td [] [] [(Elem t_p [] (utf8 s) [], [])], []).
Definition d_head (s : string) : kid := (Elem t_th [] [] [(Elem t_p [] (utf8 s) [], [])], []).
Definition d_wide (s : string) : kid :=
  (Elem t_th [(a_colspan, utf8 "2")] [] [(Elem t_p [] (utf8 s) [], [])], []).
Definition d_row (ks : list kid) : kid := (Elem t_tr [] [] ks, []).
Definition d_cells (l : list string) : kid := d_row (map d_cell l).
Definition d_table (rows : list kid) : elem := Elem t_table [] [] rows.
Definition d_doc (tbls : list elem) : elem :=
  Elem (utf8 "html") [] [] [(Elem t_body [] [] (map (fun x => (x, [])) tbls), [])].

Definition sample_bits : elem := d_table
  [d_cells ["Figure 7: A"]; d_row [d_head "Bits"; d_head "Description"];
   d_cells ["31:16"; "Major (MJR): The major number."]; d_cells ["15:08"; "reserved"];
   d_cells ["note 1"; "dropped"]; d_cells ["07:00"; "Minor (MNR): The minor number."]].
Definition sample_list : elem := d_table
  [d_cells ["Figure 8: B"]; d_row [d_head "Bytes"; d_head "Description"];
   d_cells ["03:00"; "Count (CNT): n"]; d_row [d_wide "Entry List"];
   d_cells ["(N*4)+3 : N*4"; "Entry (ENT): e"]; d_cells ["x"; "Tail (TL): e"]].
Definition sample_values : elem := d_table
  [d_cells ["Figure 37: C"]; d_row [d_head "Value"; d_head "Description"];
   d_cells ["0"; "Some thing: x"]; d_cells ["7"; "Other: x"]].
Definition sample_none : elem := d_table
  [d_cells ["Figure 9: D"]; d_row [d_head "Colour"]; d_cells ["red"]].
Definition sample_parser : parser := mkParser true (fst NvmCsZoned11c) [].

Example sample_sane : sane sample_parser.
Proof. intros ? ? ? ? []. Qed.
Example sample_run :
  parse_doc sample_parser (d_doc [sample_bits; sample_list; sample_values; sample_none])
  = (Ok tt,
     [EvEnt (mkEntity (mkMeta (Some (utf8 "Figure 7: A")) (utf8 "7") None)
        (BStruct KBits [mkSField (utf8 "mnr") (RInt 0 7) (Some (utf8 "The minor number"));
                        mkSField (utf8 "RESERVED") (RInt 8 15) None;
                        mkSField (utf8 "mjr") (RInt 16 31) (Some (utf8 "The major number"))]));
      EvLint (row_lint R1001 (utf8 "8") (utf8 "x") []);
      EvEnt (mkEntity (mkMeta (Some (utf8 "Figure 8: B")) (utf8 "8") None)
        (BStruct KBytes [mkSField (utf8 "cnt") (RInt 0 3) (Some (utf8 "n"));
                         mkSField (utf8 "ent") (RDyn (utf8 "N*4") (utf8 "(N*4)+3")) (Some (utf8 "e"));
                         mkSField (utf8 "tl") (RText (utf8 "x")) (Some (utf8 "e"))]));
      EvLint (row_lint L1007 (utf8 "37") (utf8 "0") []);
      EvEnt (mkEntity (mkMeta (Some (utf8 "Figure 37: C")) (utf8 "37") None)
        (BValues [mkVField (utf8 "0") (utf8 "zt") (Some (utf8 "x"));
                  mkVField (utf8 "7") (utf8 "OTHER") (Some (utf8 "x"))]));
      EvLint (mkLint T1007 (utf8 "9") (code_msg T1007) None
                [(utf8 "columns", JList [JStr (utf8 "colour")])])]).
Proof. vm_compute. reflexivity. Qed.

Example sample_title : title_id (utf8 "Figure 12a: X") (utf8 "12a")
  /\ figure_id (utf8 "Figures 12") = None /\ figure_id (utf8 "The Figure 12") = None
  /\ figure_id (utf8 "Figure :12") = None.
Proof. split; [apply C29_figure_id|]; vm_compute; auto. Qed.
