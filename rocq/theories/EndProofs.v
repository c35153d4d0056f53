(** Proofs for C78: the texts of docx cells and what the JSON stage reads. *)
From Coq Require Import NArith ZArith List Bool String Lia.
From Verif Require Import QueryProofs RunProofs  PyStr PyStrFacts Xml Docx Render Lint RowIter Helpers Extract Document
  SpecText SpecFields SpecLabel SpecHeader SpecRows SpecTable SpecDoc SpecRun SpecReads SpecFmt SpecDocx SpecGrid SpecHtml SpecTables SpecEnd
  MFacts LabelProofs HeaderProofs RowProofs TableProofs GridProofs HtmlProofs TableHtml RestoreProofs
  Prop_Label Prop_Docx Prop_Grid SpecNames NameProofs CellRead.
Import ListNotations.
Local Open Scope string_scope.
Local Open Scope list_scope.
Local Open Scope N_scope.

(** ** Texts of cells *)
Lemma strip_around w1 s w2 t : blank w1 -> blank w2 -> trims_to s t -> strip (w1 ++ s ++ w2) = t.
Proof.
  intros B1 B2 (T & a & b & -> & A & B). apply trims_unique. split; [exact T|]. exists (w1 ++ a), (b ++ w2). split; [rewrite <- !app_assoc; reflexivity|].
  split; apply Forall_app; split; assumption.
Qed.

Section Any.
Variable d : docx.
Lemma unnumbered_num p : unnumbered p -> p_num p = None.
Proof.
  intros U. unfold p_num, attr_first. replace (w_path ["w:pPr"; "w:numPr"; "w:numId"] p) with (@nil welem); [reflexivity|]. symmetry. cbn [w_path].
  assert (E : forall pr, In pr (w_children "w:pPr" p) -> w_children "w:numPr" pr = []).
  { intros pr I. unfold w_children in I. apply filter_In in I as [I T]. apply is_tag_iff in T. unfold w_children. destruct (filter _ (w_kids pr)) as [|n ns] eqn:F; [reflexivity|]. exfalso.
    assert (J : In n (filter (is_tag "w:numPr") (w_kids pr))) by (rewrite F; left; reflexivity). apply filter_In in J as [J TN]. apply is_tag_iff in TN.
    exact (U pr n (conj I T) (conj J TN)). }
  induction (w_children "w:pPr" p) as [|pr prs IH]; [reflexivity|]. cbn [flat_map]. rewrite (E pr (or_introl eq_refl)). cbn [flat_map app]. apply IH. intros q I. apply E. right. exact I.
Qed.
Lemma any_silent k st s r fuel : silent k -> parse_any d fuel (k :: st) s = DOk r -> exists fuel', parse_any d fuel' st s = DOk r.
Proof.
  intros [(NP & NT) | (TP & U & rs & R & RT)] H; (destruct fuel as [|f]; [discriminate|]); cbn [parse_any] in H.
  - rewrite (proj2 (is_tag_false _ _) NT), (proj2 (is_tag_false _ _) NP) in H. eauto.
  - assert (NT : is_tag "w:tbl" k = false) by (apply is_tag_false; rewrite TP; discriminate). rewrite NT, (proj2 (is_tag_iff _ _) TP) in H.
    unfold is_list_p in H. rewrite (unnumbered_num k U) in H. cbn [dbind] in H. unfold parse_paragraph in H.
    destruct (parse_spans d k) as [sps| |] eqn:PS; cbn [dbind] in H; try discriminate.
    destruct (C65_text _ _ _ PS) as (rs' & R' & RT'). destruct (C65_unique _ _ _ _ _ R R' RT RT') as [_ E].
    destruct sps; [|discriminate]. destruct (parse_any d f st s) as [[us' s'']| |] eqn:PB; cbn [dbind] in H; try discriminate. exists f. congruence.
Qed.
Lemma any_skip l : Forall silent l -> forall fuel st s r,
  parse_any d fuel (l ++ st) s = DOk r -> exists fuel', parse_any d fuel' st s = DOk r.
Proof.
  induction 1 as [|k l SK _ IH]; intros fuel st s r H; [eauto|]. cbn [app] in H. destruct (any_silent _ _ _ _ _ SK H) as (f & E). exact (IH _ _ _ _ E).
Qed.
Lemma any_rest l : Forall silent l -> forall fuel s us s',
  parse_any d fuel l s = DOk (us, s') -> us = [].
Proof.
  intros F fuel s us s' H. rewrite <- (app_nil_r l) in H. destruct (any_skip _ F _ _ _ _ H) as (f & E). destruct f; [discriminate|]. cbn in E. congruence.
Qed.

(** The units of a cell that says [t]: one paragraph with that text. *)
Lemma says_units tc t fuel s us s' : cell_says tc t -> parse_any d fuel (w_kids tc) s = DOk (us, s') ->
  exists sps, us = [HPar sps] /\ trims_to (List.concat (map sp_text sps)) t.
Proof.
  intros (a & p & b & rs & xs & K & TP & U & F & R & RT & NE & T) H. rewrite K in H. apply Forall_app in F as [FA FB].
  destruct (any_skip _ FA _ _ _ _ H) as (f & E). destruct f as [|f]; [discriminate|]. cbn [parse_any] in E.
  assert (NT : is_tag "w:tbl" p = false) by (apply is_tag_false; rewrite TP; discriminate). rewrite NT, (proj2 (is_tag_iff _ _) TP) in E.
  unfold is_list_p in E. rewrite (unnumbered_num p U) in E. cbn [dbind] in E. unfold parse_paragraph in E.
  destruct (parse_spans d p) as [sps| |] eqn:PS; cbn [dbind] in E; try discriminate.
  destruct (parse_any d f b s) as [[us' s'']| |] eqn:PB; cbn [dbind] in E; try discriminate. injection E as <- <-.
  rewrite (any_rest _ FB _ _ _ _ PB). destruct (C65_text _ _ _ PS) as (rs' & R' & RT'). destruct (C65_unique _ _ _ _ _ R R' RT RT') as [_ ->].
  exists sps. split; [|exact T]. destruct sps; [destruct (NE eq_refl) | reflexivity].
Qed.
End Any.

Lemma spans_text tr : forall sps ks, Forall2 (span_shows tr) sps ks -> flat_map (fun k : kid => itertext (fst k) ++ snd k) ks = List.concat (map sp_text sps).
Proof.
  induction 1 as [|sp k sps ks (a & -> & _) _ IH]; [reflexivity|]. cbn [flat_map fst snd itertext map List.concat]. rewrite !app_nil_r, IH. reflexivity.
Qed.

Lemma itertext_elem t a x ks : itertext (Elem t a x ks) = x ++ flat_map (fun k : kid => itertext (fst k) ++ snd k) ks.
Proof. reflexivity. Qed.
Lemma itertext_one t a k : itertext (Elem t a [] [k]) = itertext (fst k) ++ snd k.
Proof. rewrite itertext_elem. unfold flat_map. rewrite app_nil_r. reflexivity. Qed.

(** What the reader sees of such a cell. *)
Definition seen_cell (td : elem) (t : str) : Prop :=
  exists p tl tag a, td = Elem tag a [] [(p, tl)] /\ e_tag p = t_p /\ to_text p = t /\ (forall w1 w2, blank w1 -> blank w2 -> strip (w1 ++ itertext td ++ w2) = t).
Lemma seen_text td t : seen_cell td t -> to_text td = t.
Proof. intros (p & tl & tag & a & -> & _ & _ & E). specialize (E [] [] ltac:(constructor) ltac:(constructor)). rewrite app_nil_r in E. exact E. Qed.
Lemma seen_p td t : seen_cell td t -> exists p, nth_error (children t_p td) 0 = Some p /\ to_text p = t.
Proof. intros (p & tl & tag & a & -> & T & E & _). exists p. split; [|exact E]. unfold children, kids_of. cbn [e_kids filter fst]. rewrite T, seqb_refl. reflexivity. Qed.
Lemma seen_tables td t : seen_cell td t -> children t_table td = [].
Proof. intros (p & tl & tag & a & -> & T & E & _). unfold children, kids_of. cbn [e_kids filter fst]. rewrite T. reflexivity. Qed.
Lemma seen_del td t n : seen_cell td t -> seen_cell (del_attr n td) t.
Proof. intros (p & tl & tag & a & -> & T & E & W). exists p, tl, tag, (filter (fun q => negb (seqb (fst q) n)) a). split; [reflexivity|]. split; [exact T|]. split; [exact E|]. exact W. Qed.

Lemma cell_seen tr cr d fuel rows r p k t : cell_shown tr cr (parse_any d fuel) rows r p k -> cell_says (wc_tc (snd p)) t ->
  seen_cell (fst k) t /\ blank (snd k).
Proof.
  intros (a & ks & tail & n & us & s1 & s2 & -> & BT & _ & _ & _ & PA & US) CS. split; [|exact (breaks_blank _ BT)]. cbn [fst].
  destruct (says_units d _ _ _ _ _ _ CS PA) as (sps & -> & T). inversion US as [|? ? e tl ks' SW BR US']; subst. inversion US'; subst.
  inversion SW as [sps' x kk BX F2 | |]; subst. apply breaks_blank in BX. destruct BR as (w & -> & BW).
  assert (IT : forall w1 w2, blank w1 -> blank w2 -> strip (w1 ++ (x ++ List.concat (map sp_text sps)) ++ w2) = t).
  { intros w1 w2 B1 B2. rewrite <- app_assoc, app_assoc. apply strip_around; [apply Forall_app; auto | exact B2 | exact T]. }
  eexists _, _, _, _. split; [reflexivity|]. split; [reflexivity|]. split.
  - unfold to_text. rewrite itertext_elem, (spans_text _ _ _ F2). specialize (IT [] [] ltac:(constructor) ltac:(constructor)). rewrite app_nil_r in IT. exact IT.
  - intros w1 w2 B1 B2. rewrite itertext_one. cbn [fst snd]. rewrite itertext_elem, (spans_text _ _ _ F2).
    replace (w1 ++ ((x ++ List.concat (map sp_text sps)) ++ 10 :: w) ++ w2) with (w1 ++ (x ++ List.concat (map sp_text sps)) ++ (10 :: w ++ w2)).
    + apply IT; [exact B1|]. constructor; [reflexivity|]. apply Forall_app; auto.
    + rewrite <- !app_assoc. reflexivity.
Qed.
