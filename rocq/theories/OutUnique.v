(** Proofs for C80: the specification leaves no choice. *)
From Coq Require Import NArith ZArith List Bool String Lia ZifyBool ZifyN.
From Verif Require Import PyTables PyStr PyStrFacts Regex Regexes Xml Json Lint RowIter Helpers Extract Document
  RegexFacts MFacts SpecText SpecFields SpecLabel SpecHeader SpecRows SpecTable SpecDoc SpecRun SpecReads SpecEnd SpecOut SpecIter IterProofs ReadForms
  RangeProofs LabelProofs ValidateProofs RowProofs HeaderProofs TableProofs SizeProofs Prop_Label Prop_Range Prop_Header DocProofs DocFlow DocRuns
  Prop_Table Prop_Doc ReadProofs ReadFigs EndProofs OutProofs SpecNames NameProofs CellRead.
Import ListNotations.
Local Open Scope list_scope.
Local Open Scope N_scope.

(** ** Headers and labels *)
Lemma variant_fun c v v' : known_variant c v -> known_variant c v' -> v = v'.
Proof. intros A B. apply variant_of_iff in A, B. congruence. Qed.
Lemma header_entries_fun fig c e e' : header_entries fig c e -> header_entries fig c e' -> e = e'.
Proof.
  intros [v V | N] [v' V' | N']; [rewrite (variant_fun _ _ _ V V'); reflexivity | destruct (N' _ V) | destruct (N _ V') | reflexivity].
Qed.
Lemma headers_told_fun fig tbl ls ls' : headers_told fig tbl ls -> headers_told fig tbl ls' -> ls = ls'.
Proof.
  unfold headers_told. destruct (children t_tr tbl) as [|tr trs]; [congruence|].
  intros (a & -> & A) (b & -> & B). f_equal. revert b B. induction A as [|k e ks es (c & C1 & C2) _ IH]; intros b B; inversion B as [|? e' ? es' (c' & C1' & C2') B']; subst; [reflexivity|].
  apply header_form_unique in C1, C1'. rewrite <- C1 in C1'. subst c'. f_equal; [eapply header_entries_fun; eassumption | apply IH; exact B'].
Qed.
Lemma validity_fun fig key l a b : label_validity fig key l a -> label_validity fig key l b -> a = b.
Proof. intros [V|V] [V'|V']; try reflexivity; contradiction. Qed.
Lemma form_fun same fig key s a b : form_entries same fig key s a -> form_entries same fig key s b -> a = b.
Proof.
  intros H H'. destruct H; destruct H'; generalize (row_lint L1000 fig key []), (row_lint L1003 fig key []), (row_lint L1004 fig key []); intros l1 l2 l3;
    try reflexivity; exfalso; subst; try congruence; try same_text; subst; try contradiction.
  all: try (match goal with N : [] ++ [] <> [] |- _ => destruct (N eq_refl) end).
  all: try (match goal with N : ~ In 58 (_ ++ 58 :: _) |- _ => destruct N; apply in_elt end).
  all: match goal with E : ?h ++ 58 :: _ = ?h' ++ 58 :: _ |- _ => destruct (colon_fun _ _ _ _ E) as [-> _]; [assumption | assumption | contradiction] end.
Qed.
Lemma label_entries_fun same fig key s a b : label_entries same fig key s a -> label_entries same fig key s b -> a = b.
Proof.
  intros (r & n & a1 & a2 & S1 & N1 & F1 & V1 & ->) (r' & n' & b1 & b2 & S2 & N2 & F2 & V2 & ->).
  rewrite (source_fun _ _ _ _ S1 S2) in N1. rewrite (normal_fun _ _ _ N1 N2) in V1. rewrite (form_fun _ _ _ _ _ _ F1 F2), (validity_fun _ _ _ _ _ V1 V2). reflexivity.
Qed.
Lemma before_colon_fun s h h' : before_colon s h -> before_colon s h' -> h = h'.
Proof.
  intros [N [->|(r & ->)]] [N' [E|(r' & E)]]; [exact E | | |].
  - subst h. destruct N. apply in_elt.
  - rewrite <- E in N'. destruct N'. apply in_elt.
  - exact (proj1 (colon_fun _ _ _ _ E N N')).
Qed.
Lemma colon_entries_fun fig key s a b : colon_entries fig key s a -> colon_entries fig key s b -> a = b.
Proof. intros [[I ->]|[I ->]] [[I' ->]|[I' ->]]; try reflexivity; contradiction. Qed.
Lemma value_entries_fun same fig key s a b : value_entries same fig key s a -> value_entries same fig key s b -> a = b.
Proof.
  assert (VT : forall n n', value_text s n -> value_text s n' -> n = n') by (intros n n' A B; apply value_text_split in A, B; congruence).
  intros H H'. destruct H as [S1 R|name l ls S1 R T N VN V|l ls S1 R T VN V|S1 R|h a1 S1 R B C W|h l a1 b1 S1 R B C W VN V];
    destruct H' as [S1' R'|name' l' ls' S1' R' T' N' VN' V'|l' ls' S1' R' T' VN' V'|S1' R'|h' a2 S1' R' B' C' W'|h' l' a2 b2 S1' R' B' C' W' VN' V'];
    try (exfalso; congruence); try reflexivity.
  - rewrite (VT _ _ T T') in VN. rewrite (value_name_fun _ _ _ VN VN') in V. eapply validity_fun; eassumption.
  - rewrite (VT _ _ T T') in N. congruence.
  - rewrite (VT _ _ T' T) in N'. congruence.
  - f_equal. rewrite (value_name_fun _ _ _ VN VN') in V. eapply validity_fun; eassumption.
  - eapply colon_entries_fun; eassumption.
  - rewrite (before_colon_fun _ _ _ B B') in W. contradiction.
  - rewrite (before_colon_fun _ _ _ B B') in W. contradiction.
  - rewrite (before_colon_fun _ _ _ B B') in VN. rewrite (value_name_fun _ _ _ VN VN') in V. rewrite (colon_entries_fun _ _ _ _ _ C C'). f_equal.
    eapply validity_fun; eassumption.
Qed.

(** ** Rows *)
Lemma row_items_fun x dyn y a b : row_items x dyn y a -> row_items x dyn y b -> a = b.
Proof.
  intros H H'. destruct H as [k c l r ls RC S1 S2 S3 R L | k c l r RC SK SP R | k c l RC SK | NC];
    destruct H' as [k' c' l' r' ls' RC' S1' S2' S3' R' L' | k' c' l' r' RC' SK' SP' R' | k' c' l' RC' SK' | NC'];
    try (destruct (row_cells_fun _ _ _ _ _ _ _ _ RC RC') as (<- & <- & <-)); try tauto;
    try (match goal with H : SpecTable.row_cells _ _ _ _ _, N : forall k c l, ~ SpecTable.row_cells _ _ _ _ _ |- _ => destruct (N _ _ _ H) end).
  - assert (r = r') as <- by (destruct dyn; [eapply reads_formula_fun | eapply reads_numbers_fun]; eassumption).
    rewrite (label_entries_fun _ _ _ _ _ _ L L'). reflexivity.
  - rewrite (reads_numbers_fun _ _ _ R R'). reflexivity.
Qed.
Lemma vrow_items_fun ov x y a b : vrow_items ov x y a -> vrow_items ov x y b -> a = b.
Proof.
  intros H H'. destruct H as [k c VC E | k c l VC E O | k c s ls VC E O T V | NC];
    destruct H' as [k' c' VC' E' | k' c' l' VC' E' O' | k' c' s' ls' VC' E' O' T' V' | NC'];
    try (destruct (value_cells_fun _ _ _ _ _ _ VC VC') as (<- & <-)); try tauto;
    try (match goal with H : value_cells _ _ _ _, N : forall k c, ~ value_cells _ _ _ _ |- _ => destruct (N _ _ H) end).
  - destruct (overridden_not _ _ _ _ O O').
  - destruct (overridden_not _ _ _ _ O' O).
  - destruct T as (td & p & ps & T1 & T2 & ->), T' as (td' & p' & ps' & T1' & T2' & ->).
    assert (to_text p = to_text p') as E0 by congruence. rewrite <- E0 in V'. rewrite (value_entries_fun _ _ _ _ _ _ V V'). reflexivity.
Qed.
Lemma ends_with_fun x y a b : ends_with x y a -> ends_with x y b -> a = b.
Proof.
  intros [_ [((u & E) & ->)|(A & B & n & C & ->)]] [_ [((u' & E') & ->)|(A' & B' & n' & C' & ->)]]; [reflexivity | destruct (B' _ E) | destruct (B _ E')|].
  f_equal. eapply splits_fun; eassumption.
Qed.
Lemma ends_with_last x y ex : ends_with x y ex -> row_ends x y.
Proof. intros [N [((u & E) & _) | (A & B & n & C & _)]]; [eapply re_note; eassumption | eapply re_split; eassumption]. Qed.

(** The items of the first rows come first. *)
Lemma rows_items_prefix x a : forall dyn b i1 e1 i2 e2, rows_items x dyn a i1 e1 -> rows_items x dyn (a ++ b) i2 e2 ->
  exists t, i2 = i1 ++ t /\ (b = [] -> t = [] /\ e1 = e2).
Proof.
  induction a as [|y a IH]; intros dyn b i1 e1 i2 e2 H1 H2.
  - inversion H1; subst. exists i2. split; [reflexivity|]. intros ->. inversion H2; subst. auto.
  - cbn [app] in H2. inversion H1 as [| ? ? ? ? ? N R | ? ? ? a1 b1 ? D NE NF RI R | ? ? ? ? D EW]; subst;
      inversion H2 as [| ? ? ? ? ? N' R' | ? ? ? a2 b2 ? D' NE' NF' RI' R' | ? ? ? ? D' EW']; subst; try contradiction.
    + exact (IH _ _ _ _ _ _ R R').
    + destruct (IH _ _ _ _ _ _ R R') as (t & -> & T). exists t. rewrite (row_items_fun _ _ _ _ _ RI RI'), app_assoc. auto.
    + destruct (NE (ends_with_last _ _ _ EW')).
    + destruct (NE' (ends_with_last _ _ _ EW)).
    + exists []. split; [reflexivity|]. intros _. split; [reflexivity | eapply ends_with_fun; eassumption].
Qed.
Lemma vrows_items_prefix ov x a : forall b i1 i2, vrows_items ov x a i1 -> vrows_items ov x (a ++ b) i2 ->
  exists t, i2 = i1 ++ t /\ (b = [] -> t = []).
Proof.
  induction a as [|y a IH]; intros b i1 i2 H1 H2.
  - inversion H1; subst. exists i2. split; [reflexivity|]. intros ->. inversion H2; subst. auto.
  - cbn [app] in H2. inversion H1 as [| ? ? ? N R | ? ? a1 b1 D NE RI R | ? ? D EW]; subst;
      inversion H2 as [| ? ? ? N' R' | ? ? a2 b2 D' NE' RI' R' | ? ? D' EW']; subst; try contradiction.
    + exact (IH _ _ _ R R').
    + destruct (IH _ _ _ R R') as (t & -> & T). exists t. rewrite (vrow_items_fun _ _ _ _ _ RI RI'), app_assoc. auto.
    + exists []. auto.
Qed.
Lemma items_prefix P x a b i1 e1 i2 e2 : table_items P x a i1 e1 -> table_items P x (a ++ b) i2 e2 ->
  exists t, i2 = i1 ++ t /\ (b = [] -> t = [] /\ e1 = e2).
Proof.
  unfold table_items. destruct (ec_kind (x_cls x)); [apply rows_items_prefix|].
  intros [A ->] [B ->]. destruct (vrows_items_prefix _ _ _ _ _ _ A B) as (t & -> & T). exists t. split; [reflexivity | auto].
Qed.
Lemma items_fun P x a i1 e1 i2 e2 : table_items P x a i1 e1 -> table_items P x a i2 e2 -> i1 = i2 /\ e1 = e2.
Proof.
  intros A B. rewrite <- (app_nil_r a) in B. destruct (items_prefix _ _ _ _ _ _ _ _ A B) as (t & -> & T).
  destruct (T eq_refl) as [-> ->]. rewrite app_nil_r. auto.
Qed.

(** A row that cannot be read gives no items. *)
Lemma rows_no_items x y b a : forall dyn its ex, (forall z, In z a -> data_row z -> ~ row_ends x z) -> data_row y ->
  row_fails x (dyn || lists_above a) y -> rows_items x dyn (a ++ y :: b) its ex -> False.
Proof.
  induction a as [|z a IH]; intros dyn its ex NL D F H.
  - cbn [lists_above existsb app] in *. rewrite orb_false_r in F. inversion H as [| ? ? ? ? ? N R | ? ? ? a1 b1 ? D1 NE NF RI R | ? ? ? ? D1 EW]; subst; try contradiction.
    exact (fails_ends _ _ _ F (ends_with_last _ _ _ EW)).
  - cbn [app] in H. inversion H as [| ? ? ? ? ? N R | ? ? ? a1 b1 ? D1 NE NF RI R | ? ? ? ? D1 EW]; subst.
    + eapply (IH _ _ _ (fun w I => NL w (or_intror I)) D); [|exact R].
      replace (dyn || announces_list (y_row z) || lists_above a) with (dyn || lists_above (z :: a)); [exact F|].
      cbn [lists_above existsb]. unfold lists_above. replace (contains_th (y_row z)) with true; [cbn; rewrite orb_assoc; reflexivity|].
      symmetry. destruct (contains_th (y_row z)) eqn:Q; [reflexivity|]. apply contains_th_children in Q. contradiction.
    + eapply (IH _ _ _ (fun w I => NL w (or_intror I)) D); [|exact R].
      replace (dyn || lists_above a) with (dyn || lists_above (z :: a)); [exact F|].
      cbn [lists_above existsb]. replace (contains_th (y_row z)) with false; [reflexivity|].
      symmetry. apply contains_th_children. exact D1.
    + exact (NL z (or_introl eq_refl) D1 (ends_with_last _ _ _ EW)).
Qed.
Lemma vrows_no_items ov x y b a : forall its, (forall z, In z a -> data_row z -> ~ vrow_ends x z) -> data_row y ->
  vrow_fails ov x y -> vrows_items ov x (a ++ y :: b) its -> False.
Proof.
  induction a as [|z a IH]; intros its NL D F H; cbn [app] in H; inversion H as [| ? ? ? N R | ? ? a1 b1 D1 NE RI R | ? ? D1 EW]; subst; try contradiction.
  - destruct F as [k c VC NE' NO NLB]. destruct RI as [k' c' VC' E | k' c' l VC' E O | k' c' s ls VC' E O T V | NC].
    + destruct (value_cells_fun _ _ _ _ _ _ VC VC') as (<- & <-). contradiction.
    + destruct (value_cells_fun _ _ _ _ _ _ VC VC') as (<- & <-). exact (overridden_not _ _ _ _ O NO).
    + destruct T as (td & p & ps & T1 & T2 & _). rewrite (NLB _ T1) in T2. discriminate.
    + exact (NC _ _ VC).
  - exact (vfails_ends _ _ _ F EW).
  - exact (IH _ (fun w I => NL w (or_intror I)) D F R).
  - exact (IH _ (fun w I => NL w (or_intror I)) D F R).
  - exact (NL z (or_introl eq_refl) D1 EW).
Qed.
Lemma no_items P x a y b ls its ex : (forall z, In z a -> data_row z -> ~ last_row x z) -> failing_row P x a y ls ->
  table_items P x (a ++ y :: b) its ex -> False.
Proof.
  unfold last_row, failing_row, table_items. destruct (ec_kind (x_cls x)).
  - intros N (D & F & _) H. exact (rows_no_items x y b a false its ex N D F H).
  - intros N (D & F & _) [H _]. exact (vrows_no_items _ x y b a its N D F H).
Qed.
Lemma failing_fun P x a y ls ls' : failing_row P x a y ls -> failing_row P x a y ls' -> ls = ls'.
Proof.
  unfold failing_row. destruct (ec_kind (x_cls x)); [intuition congruence|].
  intros (_ & _ & k & c & V & ->) (_ & _ & k' & c' & V' & ->). destruct (value_cells_fun _ _ _ _ _ _ V V') as (<- & <-). reflexivity.
Qed.
Lemma checks_fun fig b a c : checks_told fig b a -> checks_told fig b c -> a = c.
Proof. unfold checks_told. destruct b; [intuition congruence | congruence]. Qed.

(** Two ways to split a list. *)
Lemma split_cases {A} (a b a' b' : list A) : a ++ b = a' ++ b' -> (exists t, a' = a ++ t /\ b = t ++ b') \/ (exists t, a = a' ++ t /\ b' = t ++ b).
Proof.
  revert a'. induction a as [|x a IH]; intros a' E; [left; exists a'; auto|].
  destruct a' as [|x' a']; [right; exists (x :: a); auto|]. cbn in E. injection E as <- E.
  destruct (IH _ E) as [(t & -> & ->)|(t & -> & ->)]; [left | right]; exists t; auto.
Qed.
Lemma items_comparable P x rows a b a' b' i1 e1 i2 e2 : rows = a ++ b -> rows = a' ++ b' -> table_items P x a i1 e1 -> table_items P x a' i2 e2 ->
  (exists t, i2 = i1 ++ t) \/ (exists t, i1 = i2 ++ t).
Proof.
  intros -> E A B. destruct (split_cases _ _ _ _ E) as [(t & -> & _)|(t & -> & _)].
  - left. destruct (items_prefix _ _ _ _ _ _ _ _ A B) as (u & -> & _). eauto.
  - right. destruct (items_prefix _ _ _ _ _ _ _ _ B A) as (u & -> & _). eauto.
Qed.

(** ** How a figure is handled *)
Lemma handled_unsupported P m tbl x hs : handled P m tbl x -> lookup_fig (p_fig_overrides P) (m_fig m) = None ->
  table_headers tbl hs -> unsupported hs -> False.
Proof.
  intros (_ & hs' & TH & CH & _) LK TH' US. rewrite (table_headers_fun _ _ _ TH TH') in CH. unfold chosen in CH. rewrite LK in CH.
  unfold unsupported in US. tauto.
Qed.
Lemma handled_unrecognised P m tbl x : handled P m tbl x -> unrecognised P m tbl -> False.
Proof.
  intros (_ & hs' & TH & CH & UC) (c & hs & LK & TH' & N). rewrite (table_headers_fun _ _ _ TH TH') in *. unfold chosen in CH. rewrite LK in CH. subst. exact (N _ _ _ UC).
Qed.
Lemma no_last_end P x tbl e b : snd (row_iter tbl) = Some e -> (forall z, In z (fst (row_iter tbl)) -> data_row z -> ~ last_row x z) ->
  comes_to_end x tbl -> table_gives P x tbl b -> False.
Proof. intros S1 N EN G. apply (gives_obstacle P x tbl b G EN). eapply obstacle_spans; eassumption. Qed.

(** ** Figures *)
Scheme outputs_ind2 := Induction for outputs Sort Prop with items_ind2 := Induction for item_outputs Sort Prop.

Lemma item_in P its es : item_outputs P its es -> forall n, In (Nested n) its -> exists en, outputs P n Complete en.
Proof.
  induction 1 as [|l its es H IH|n0 its en es O H IH]; intros n I; [destruct I | |].
  - destruct I as [I|I]; [discriminate | exact (IH _ I)].
  - destruct I as [I|I]; [injection I as ->; eauto | exact (IH _ I)].
Qed.

(** A failing row and items of more rows; two failing rows. *)
Lemma row_items_none P x rows a y b a' b' ls its ex : rows = a ++ y :: b -> rows = a' ++ b' -> (forall z, In z a -> data_row z -> ~ last_row x z) ->
  failing_row P x a y ls -> table_items P x a' its ex -> exists t, a = a' ++ t.
Proof.
  intros E E' N F T. rewrite E in E'. destruct (split_cases _ _ _ _ E') as [(t & A & B)|(t & A & _)]; [|eauto].
  destruct t as [|y' t]; [rewrite app_nil_r in A; subst; exists []; rewrite app_nil_r; reflexivity|].
  cbn in B. injection B as <- _. subst a'. destruct (no_items P x a y t ls its ex N F T).
Qed.
Lemma two_rows P x rows a y b a' y' b' ls ls' i e i' e' : rows = a ++ y :: b -> rows = a' ++ y' :: b' ->
  (forall z, In z a -> data_row z -> ~ last_row x z) -> (forall z, In z a' -> data_row z -> ~ last_row x z) ->
  failing_row P x a y ls -> failing_row P x a' y' ls' -> table_items P x a i e -> table_items P x a' i' e' -> a = a' /\ y = y'.
Proof.
  intros E E' N N' F F' T T'. destruct (row_items_none _ _ _ _ _ _ _ _ _ _ _ E E' N F T') as (t & A).
  destruct (row_items_none _ _ _ _ _ _ _ _ _ _ _ E' E N' F' T) as (t' & A').
  assert (t = []) as ->. { rewrite A in A'. rewrite <- app_assoc in A'. rewrite <- (app_nil_r a') in A' at 1. apply app_inv_head in A'. symmetry in A'. apply app_eq_nil in A'. tauto. }
  rewrite app_nil_r in A. subst a'. split; [reflexivity|]. rewrite E in E'. apply app_inv_head in E'. congruence.
Qed.
(** The first nested figure that does not complete. *)
Lemma first_bad (i1 i2 : list item) n1 n2 r1 r2 : i1 ++ Nested n1 :: r1 = i2 ++ Nested n2 :: r2 ->
  (i1 = i2 /\ n1 = n2) \/ In (Nested n1) i2 \/ In (Nested n2) i1.
Proof.
  intros E. destruct (split_cases _ _ _ _ E) as [([|z t] & A & B)|([|z t] & A & B)]; cbn in B.
  - rewrite app_nil_r in A. injection B as <- _. auto.
  - injection B as -> _. right. left. rewrite A. apply in_elt.
  - rewrite app_nil_r in A. injection B as <- _. auto.
  - injection B as -> _. right. right. rewrite A. apply in_elt.
Qed.

Lemma bad_in P x a b a' i1 n rest ex its e' : a' = a ++ b -> table_items P x a (i1 ++ Nested n :: rest) ex -> table_items P x a' its e' -> In (Nested n) its.
Proof. intros -> A B. destruct (items_prefix _ _ _ _ _ _ _ _ A B) as (t & -> & _). rewrite <- app_assoc. apply in_elt. Qed.

Section UNIQUE.
Variable (P : parser).
Hypothesis SO : struct_overrides P.

Ltac known := repeat match goal with
    | A : handled P ?m ?t ?x, B : handled P ?m ?t ?y |- _ => first [constr_eq x y; fail 1 | pose proof (handled_fun P m t x y SO A B); subst y; clear B]
    | A : headers_told ?f ?t ?x, B : headers_told ?f ?t ?y |- _ => first [constr_eq x y; fail 1 | pose proof (headers_told_fun f t x y A B); subst y; clear B]
    | A : handled P ?m ?t ?x, B : lookup_fig _ (m_fig ?m) = None, C : table_headers ?t ?hs, D : unsupported ?hs |- _ => destruct (handled_unsupported P m t x hs A B C D)
    | A : handled P ?m ?t ?x, B : unrecognised P ?m ?t |- _ => destruct (handled_unrecognised P m t x A B)
    | A : unrecognised P ?m ?t, B : lookup_fig _ (m_fig ?m) = None |- _ => destruct A as (? & ? & A & _); rewrite A in B; discriminate B
    | A : table_headers ?t ?x, B : table_headers ?t ?y |- _ => first [constr_eq x y; fail 1 | pose proof (table_headers_fun t x y A B); subst y; clear B]
    | A : table_gives P ?x ?t ?b, B : table_gives P ?x ?t ?c |- _ => first [constr_eq b c; fail 1 | pose proof (gives_fun P x t b c A B); subst c; clear B]
    | A : checks_told ?f ?t ?x, B : checks_told ?f ?t ?y |- _ => first [constr_eq x y; fail 1 | pose proof (checks_fun f t x y A B); subst y; clear B]
    | A : snd (row_iter ?t) = Some ?e, N : forall z, In z (fst (row_iter ?t)) -> _, C : comes_to_end ?x ?t, G : table_gives P ?x ?t ?b |- _ => destruct (no_last_end P x t e b A N C G)
    | A : table_items P ?x ?r ?i ?e, B : table_items P ?x ?r ?i' ?e' |- _ => let Q := fresh in let Q' := fresh in destruct (items_fun P x r i e i' e' A B) as [Q Q']; try discriminate Q'; subst i'; try (injection Q' as Q'; subst); clear B
    | E : fst (row_iter ?t) = ?a ++ ?y :: ?b, N : forall z, In z ?a -> data_row z -> ~ last_row ?x z, F : failing_row P ?x ?a ?y ?ls, A : table_items P ?x (fst (row_iter ?t)) ?i ?e |- _ =>
        rewrite E in A; destruct (no_items P x a y b ls i e N F A)
    | A : _ /\ _ |- _ => destruct A
    | A : forall es', item_outputs P ?i es' -> _ = es', B : item_outputs P ?i ?e |- _ => pose proof (A _ B); subst e; clear B
    | A : forall e' es', outputs P ?n e' es' -> _, B : outputs P ?n ?e ?es |- _ => let Q := fresh in let Q' := fresh in destruct (A _ _ B) as [Q Q']; try (subst e); try subst es; clear B
    end.

Ltac rows_form := repeat match goal with
    | T : table_rows _ _ false |- _ => apply rows_failed_iff in T as [T [? ?]]
    | T : table_rows _ _ _ |- _ => apply table_rows_iff in T as [T ?]
    end; subst; repeat match goal with T : _ ++ _ = fst (row_iter _) |- _ => symmetry in T end.
Ltac bad_second :=
  match goal with E : fst (row_iter ?t) = ?a ++ ?b, T : table_items P ?x ?a (_ ++ Nested ?n :: _) _, T' : table_items P ?x (fst (row_iter ?t)) ?its _,
      Q : forall n, In (Nested n) ?its -> _, O : outputs P ?n ?e _, N : ?e <> Complete |- _ =>
    destruct (N (Q _ (bad_in P x _ _ _ _ _ _ _ _ _ E T T') _ _ O)) end.
Ltac bad_first :=
  match goal with E : fst (row_iter ?t) = ?a ++ ?b, T : table_items P ?x ?a (_ ++ Nested ?n :: _) _, T' : table_items P ?x (fst (row_iter ?t)) ?its _,
      J : item_outputs P ?its _, IHn : forall e' es', outputs P ?n e' es' -> _, N : ?e <> Complete |- _ =>
    destruct (item_in _ _ _ J _ (bad_in P x _ _ _ _ _ _ _ _ _ E T T')) as (? & OC); destruct (N (proj1 (IHn _ _ OC))) end.

Lemma outputs_fun n e es : outputs P n e es -> forall e' es', outputs P n e' es' -> e = e' /\ es = es'.
Proof.
  revert n e es.
  apply (outputs_ind2 P
    (fun n e es _ => forall e' es', outputs P n e' es' -> e = e' /\ es = es')
    (fun its es _ => (forall es', item_outputs P its es' -> es = es') /\ (forall n, In (Nested n) its -> forall e en, outputs P n e en -> e = Complete))).
  - intros m tbl hs hls L T U H e' es' O. inversion O; subst; known; auto.
  - intros m tbl hls U H e' es' O. inversion O; subst; known; auto.
  - intros m tbl x rs ok hls its es b cs HD H TR TI CE TG IO IHi CK e' es' O. clear IO. inversion O; subst; clear O; rows_form; known; auto. bad_second.
  - intros m tbl x rs ok hls its es b cs n e en HD H TR TI CE TG IO IHi CK On IHn e' es' O. clear IO On. inversion O; subst; clear O; rows_form; known; auto. bad_second.
  - intros m tbl x hls its es a y b ok ls HD H RE NL TI F IO IHi e' es' O. clear IO. inversion O; subst; clear O; rows_form; known; auto.
    + match goal with E : fst (row_iter tbl) = ?a1 ++ ?y1 :: ?b1, N : forall z, In z ?a1 -> _, T : table_items P x ?a1 ?i1 ?e1, F1 : failing_row P x ?a1 ?y1 _ |- _ =>
        first [constr_eq a a1; fail 1 | destruct (two_rows P x _ _ _ _ _ _ _ _ _ _ _ _ _ RE E NL N F F1 TI T) as [<- <-]] end.
      known. match goal with F1 : failing_row P x a y ?l |- context [map EvLint ?l] => first [constr_eq l ls; fail 1 | rewrite (failing_fun _ _ _ _ _ _ F F1)] end. auto.
    + match goal with E : fst (row_iter tbl) = ?a1 ++ ?b1, T : table_items P x ?a1 (_ ++ Nested _ :: _) _ |- _ =>
        destruct (row_items_none P x _ _ _ _ _ _ _ _ _ RE E NL F T) as (t & Ea); pose proof (bad_in P x _ _ _ _ _ _ _ _ _ Ea T TI) as IN end.
      match goal with Q : forall n, In (Nested n) its -> _, O : outputs P _ ?e _, N : ?e <> Complete |- _ => destruct (N (Q _ IN _ _ O)) end.
  - intros m tbl x rs hls its es HD H SE NL TI IO IHi e' es' O. clear IO. inversion O; subst; clear O; rows_form; known; auto. bad_second.
  - intros m tbl x hls a b ok its n rest ex es e en HD H RE TI IO IHi On IHn NC e' es' O. clear IO On. inversion O; subst; clear O; rows_form; known; auto.
    + bad_first.
    + bad_first.
    + match goal with E : fst (row_iter tbl) = ?a1 ++ ?y1 :: ?b1, N : forall z, In z ?a1 -> _, T : table_items P x ?a1 ?i1 ?e1, F1 : failing_row P x ?a1 ?y1 _, J : item_outputs P ?i1 _ |- _ =>
        destruct (row_items_none P x _ _ _ _ _ _ _ _ _ E RE N F1 TI) as (t & Ea); pose proof (bad_in P x _ _ _ _ _ _ _ _ _ Ea TI T) as IN; destruct (item_in _ _ _ J _ IN) as (en' & OC) end.
      destruct (NC (proj1 (IHn _ _ OC))).
    + bad_first.
    + match goal with E : fst (row_iter tbl) = ?a1 ++ ?b1, T : table_items P x ?a1 (?i1 ++ Nested ?n1 :: ?r1) ?e1, J : item_outputs P ?i1 _, O1 : outputs P ?n1 ?ee _, N1 : ?ee <> Complete |- _ =>
        first [constr_eq ee e; fail 1 |
        assert (FB : (its = i1 /\ n = n1) \/ In (Nested n) i1 \/ In (Nested n1) its);
        [destruct (items_comparable P x _ _ _ _ _ _ _ _ _ RE E TI T) as [(t & Q)|(t & Q)]; rewrite <- app_assoc in Q; cbn [app] in Q; eapply first_bad; [symmetry; exact Q | exact Q] |
        destruct FB as [[<- <-] | [I1 | I1]];
        [| destruct (item_in _ _ _ J _ I1) as (en' & OC); destruct (NC (proj1 (IHn _ _ OC))) |
           match goal with Q : forall n, In (Nested n) its -> _ |- _ => destruct (N1 (Q _ I1 _ _ O1)) end ]]] end.
      known. auto.
  - split; [|intros n []]. intros es' O. inversion O. reflexivity.
  - intros l its es _ [A B]. split.
    + intros es' O. inversion O; subst. f_equal. apply A. assumption.
    + intros n [I|I]; [discriminate | exact (B _ I)].
  - intros n its en es _ IHn _ [A B]. split.
    + intros es' O. inversion O; subst. f_equal; [eapply IHn; eassumption | apply A; assumption].
    + intros n0 [I|I]; [|exact (B _ I)]. injection I as <-. intros e0 en0 O. symmetry. exact (proj1 (IHn _ _ O)).
Qed.
End UNIQUE.
