(** The elements written for a docx document, in document order. *)
From Coq Require Import NArith ZArith List Bool String Lia.
From Coq Require Import ZifyBool ZifyN ZifyNat.
From Verif Require Import PyStr PyStrFacts Xml Docx Render Css SpecText SpecFmt SpecHtml SpecDocx SpecCss CssRead CssProofs.
From Verif Require Import HtmlProofs DocxParts CssCascade CssPlaces.
Import ListNotations.
Local Open Scope string_scope.
Local Open Scope list_scope.
Local Open Scope N_scope.

Fixpoint kids_places (up : place) (ks : list kid) (j : nat) : list place :=
  match ks with [] => [] | k :: r => places_from (fst k) j up ++ kids_places up r (S j) end.
Lemma places_elem t a x ks i up : places_from (Elem t a x ks) i up = ((Elem t a x ks, i) :: up) :: kids_places ((Elem t a x ks, i) :: up) ks O.
Proof.
  cbn [places_from]. f_equal. generalize O. generalize ((Elem t a x ks, i) :: up). intros p. induction ks as [|k r IH]; intros j; [reflexivity|]. cbn [kids_places]. rewrite IH. reflexivity.
Qed.
Lemma kids_app up a : forall b j, kids_places up (a ++ b) j = kids_places up a j ++ kids_places up b (j + List.length a).
Proof.
  induction a as [|k a IH]; intros b j; cbn [app kids_places List.length]; [rewrite Nat.add_0_r; reflexivity|].
  rewrite IH, <- app_assoc. replace (S j + List.length a)%nat with (j + S (List.length a))%nat by lia. reflexivity.
Qed.
(** They are the places of the document. *)
Section All.
Variable root : elem.
Lemma kids_nth up ks : forall j q, In q (kids_places up ks j) <-> exists n k t, nth_error ks n = Some (k, t) /\ In q (places_from k (j + n) up).
Proof.
  induction ks as [|[k t] ks IH]; intros j q; cbn [kids_places].
  - split; [intros [] | intros (n & k & t & N & _); destruct n; discriminate].
  - cbn [fst]. rewrite in_app_iff, IH. split.
    + intros [H|(n & k' & t' & N & H)]; [exists O, k, t; rewrite Nat.add_0_r; auto|]. exists (S n), k', t'. replace (j + S n)%nat with (S j + n)%nat by lia. auto.
    + intros ([|n] & k' & t' & N & H); cbn [nth_error] in N; [injection N as <- <-; rewrite Nat.add_0_r in H; auto|].
      right. exists n, k', t'. replace (S j + n)%nat with (j + S n)%nat by lia. auto.
Qed.
Lemma places_sound : forall e i up, place_in root ((e, i) :: up) -> forall q, In q (places_from e i up) -> place_in root q.
Proof.
  fix IH 1. intros [t a x ks] i up P q. rewrite places_elem. intros [<-|H]; [exact P|].
  assert (G : forall n k tl, nth_error ks n = Some (k, tl) -> place_in root ((k, n) :: (Elem t a x ks, i) :: up)).
  { intros n k tl N. exact (pl_kid root (Elem t a x ks) i up n k tl P N). }
  clear P. revert H G. generalize (Elem t a x ks). intros e0.
  assert (Y : forall j, In q (kids_places ((e0, i) :: up) ks j) -> (forall n k tl, nth_error ks n = Some (k, tl) -> place_in root ((k, (j + n)%nat) :: (e0, i) :: up)) -> place_in root q).
  { induction ks as [|[k tl] r IHr]; intros j H G; cbn [kids_places] in H; [destruct H|]. cbn [fst] in H. apply in_app_iff in H as [H|H].
    - refine (IH k j ((e0, i) :: up) _ q H). specialize (G O k tl eq_refl). rewrite Nat.add_0_r in G. exact G.
    - refine (IHr (S j) H _). intros n k' tl' N. specialize (G (S n) k' tl' N). rewrite <- plus_n_Sm in G. exact G. }
  intros H G. exact (Y O H G).
Qed.
Theorem places_in q : In q (places root) <-> place_in root q.
Proof.
  split; [apply places_sound; constructor|].
  assert (X : forall q, place_in root q -> forall r e i up, q = (e, i) :: up -> In r (places_from e i up) -> In r (places root)).
  { induction 1 as [|e i p j k t P IH N]; intros r e' i' up' E I; [injection E as <- <- <-; exact I|]. injection E as <- <- <-.
    apply (IH r e i p eq_refl). destruct e as [tg a x ks]. rewrite places_elem. right. apply kids_nth. exists j, k, t. auto. }
  intros P. inversion P; subst; (eapply (X _ P); [reflexivity|]); match goal with |- In _ (places_from ?e _ _) => destruct e; rewrite places_elem; left; reflexivity end.
Qed.
End All.

(** ** What they are for *)

Section Order.
Variables (tr cr : list (str * list (str * str))) (CELL : tcell -> Prop).
Definition part_shown (p : place) (x : part) : Prop :=
  exists e i up, p = (e, i) :: up /\
    match x with
    | PSpan sp => exists tail, span_shows tr sp (e, tail)
    | PCell t => CELL t /\ e_tag e = tc_tag t /\ cell_attributes cr t (e_attrs e)
    | PList l its => list_shows tr l its e
    end.
Definition in_order (ps : list place) (xs : list part) : Prop := Forall2 part_shown (filter part_place ps) xs.
Lemma order_app a b xs ys : in_order a xs -> in_order b ys -> in_order (a ++ b) (xs ++ ys).
Proof. unfold in_order. rewrite filter_app. apply Forall2_app. Qed.
Lemma order_skip p ps xs : part_place p = false -> in_order ps xs -> in_order (p :: ps) xs.
Proof. unfold in_order. cbn [filter]. intros ->. auto. Qed.
Lemma order_keep p ps x xs : part_place p = true -> part_shown p x -> in_order ps xs -> in_order (p :: ps) (x :: xs).
Proof. unfold in_order. cbn [filter]. intros -> S H. constructor; assumption. Qed.
Lemma order_nil : in_order [] [].
Proof. constructor. Qed.
Lemma spans_order sps ks : Forall2 (span_shows tr) sps ks -> forall up j, in_order (kids_places up ks j) (map PSpan sps).
Proof.
  induction 1 as [|sp k sps ks H _ IH]; intros up j; [exact order_nil|]. cbn [kids_places map]. change (PSpan sp :: map PSpan sps) with ([PSpan sp] ++ map PSpan sps).
  apply order_app; [|apply IH]. destruct H as (a & -> & C). cbn [fst]. rewrite places_elem. cbn [kids_places].
  apply order_keep; [reflexivity | | exact order_nil]. do 3 eexists. split; [reflexivity|]. exists []. exists a. auto.
Qed.
Lemma list_part l : part_tag (lvl_tag l) = true.
Proof. unfold lvl_tag. destruct (is_ordered l); reflexivity. Qed.
Lemma lists_order :
  (forall l its e, list_shows tr l its e -> forall i up, in_order (places_from e i up) (PList l its :: flat_map item_parts its))
  /\ (forall its ks, items_show tr its ks -> forall up j, in_order (kids_places up ks j) (flat_map item_parts its)).
Proof.
  apply lists_mut.
  - intros l its x ks B H IH i up. rewrite places_elem. apply order_keep; [exact (list_part l) | | apply IH].
    do 3 eexists. split; [reflexivity|]. constructor; assumption.
  - intros up j. exact order_nil.
  - intros sps its x ks tail rest _ _ _ F _ IH up j. cbn [kids_places fst flat_map item_parts]. apply order_app; [|apply IH].
    rewrite places_elem. apply order_skip; [reflexivity|]. apply spans_order. exact F.
  - intros sps l sub its x ks e tl tail rest _ _ _ F _ IHl _ IH up j. cbn [kids_places fst flat_map item_parts]. rewrite app_assoc. apply order_app; [|apply IH].
    rewrite places_elem, kids_app. apply order_skip; [reflexivity|]. apply order_app; [apply spans_order; exact F|]. cbn [kids_places fst]. rewrite app_nil_r. apply IHl.
  - intros l sub its x e tl tail rest _ _ _ _ IHl _ IH up j. cbn [kids_places fst flat_map item_parts]. change (PList l sub :: flat_map item_parts sub ++ flat_map item_parts its) with ((PList l sub :: flat_map item_parts sub) ++ flat_map item_parts its).
    apply order_app; [|apply IH]. rewrite places_elem. apply order_skip; [reflexivity|]. cbn [kids_places fst]. rewrite app_nil_r. apply IHl.
Qed.
Fixpoint cells_parts (y x : Z) (ts : list tcell) : list part :=
  match ts with
  | [] => []
  | t :: ts => (match t with TC _ us _ o _ => if (fst o =? x)%Z && (snd o =? y)%Z then PCell t :: flat_map unit_parts us else [] end) ++ cells_parts y (x + 1)%Z ts
  end.
Fixpoint rows_parts (y : Z) (rows : list (list tcell)) : list part :=
  match rows with [] => [] | row :: r => cells_parts y 0%Z row ++ rows_parts (y + 1)%Z r end.
Lemma table_parts w id rows : unit_parts (HTable w id rows) = rows_parts 0 rows.
Proof.
  cbn [unit_parts]. generalize 0%Z at 2 3. induction rows as [|row r IH]; intros y; [reflexivity|]. cbn [rows_parts]. rewrite <- IH. f_equal.
  generalize 0%Z. induction row as [|t ts IHt]; intros x; [reflexivity|]. cbn [cells_parts]. rewrite <- IHt. reflexivity.
Qed.
Definition cell_tagged (t : tcell) : Prop := CELL t /\ (tc_tag t = utf8 "td" \/ tc_tag t = utf8 "th").
Definition unit_tagged (u : hunit) : Prop := forall t, cell_in u t -> cell_tagged t.
Definition cell_fine (t : tcell) : Prop := cell_tagged t /\ Forall unit_tagged (tc_elems t).
Lemma units_order :
  (forall u e, shows tr cr u e -> unit_tagged u -> forall i up, in_order (places_from e i up) (unit_parts u))
  /\ (forall y rows ks, rows_show tr cr y rows ks -> Forall (Forall cell_fine) rows -> forall up j, in_order (kids_places up ks j) (rows_parts y rows))
  /\ (forall y x ts ks, cells_show tr cr y x ts ks -> Forall cell_fine ts -> forall up j, in_order (kids_places up ks j) (cells_parts y x ts))
  /\ (forall us ks, units_show tr cr us ks -> Forall unit_tagged us -> forall up j, in_order (kids_places up ks j) (flat_map unit_parts us)).
Proof.
  apply all_shows_mut.
  - intros sps x ks _ F _ i up. rewrite places_elem. apply order_skip; [reflexivity|]. apply spans_order. exact F.
  - intros l its e H _ i up. apply lists_order. exact H.
  - intros wid id rows x ks _ _ IH C i up. rewrite places_elem, table_parts. apply order_skip; [reflexivity|]. apply IH.
    apply Forall_forall. intros row IR. apply Forall_forall. intros t IT. split; [apply C; exact (ci_cell wid id rows row t IR IT)|].
    apply Forall_forall. intros u IU t' H. apply C. eapply ci_table; eassumption.
  - intros y _ up j. exact order_nil.
  - intros y row rows x ks tail rest _ _ _ IH1 _ IH2 F up j. inversion F; subst. cbn [kids_places rows_parts fst]. apply order_app; [|apply IH2; assumption].
    rewrite places_elem. apply order_skip; [reflexivity|]. apply IH1. assumption.
  - intros y x _ up j. exact order_nil.
  - intros y x [tg us sp o f] ts ks N _ IH F up j. inversion F; subst. cbn [cells_parts]. cbn [tc_origin] in N.
    replace ((fst o =? x)%Z && (snd o =? y)%Z) with false; [apply IH; assumption|]. symmetry. apply not_true_iff_false. intros E. apply andb_true_iff in E as [E1 E2]. apply N. destruct o. cbn [fst snd] in *. f_equal; lia.
  - intros y x [tg us sp o f] ts a ks tail rest O A _ IHu _ _ IHc F up j. inversion F as [|? ? ((C0 & C1) & C2) F']; subst. cbn [cells_parts kids_places fst]. cbn [tc_origin] in O. subst o. cbn [fst snd]. rewrite !Z.eqb_refl. cbn [andb].
    apply order_app; [|apply IHc; assumption]. rewrite places_elem. cbn [tc_tag] in *. apply order_keep.
    + cbn [part_place e_tag]. destruct C1 as [E|E]; cbn [tc_tag] in E; rewrite E; reflexivity.
    + do 3 eexists. split; [reflexivity|]. split; [exact C0|]. split; [reflexivity | exact A].
    + apply IHu. exact C2.
  - intros _ up j. exact order_nil.
  - intros u us e tail ks _ IH1 _ _ IH2 F up j. inversion F; subst. cbn [kids_places fst flat_map]. apply order_app; [apply IH1; assumption | apply IH2; assumption].
Qed.
Theorem document_order version fname title rev us root : document_shows tr cr version fname title rev us root -> Forall unit_tagged us ->
  in_order (places root) (flat_map unit_parts us).
Proof.
  intros (xh & xb & x1 & t1 & t2 & t3 & t4 & t5 & t6 & ks & -> & _ & U) F. unfold places. rewrite places_elem. apply order_skip; [reflexivity|].
  cbn [kids_places fst]. change (flat_map unit_parts us) with ([] ++ flat_map unit_parts us). apply order_app.
  - rewrite places_elem. apply order_skip; [reflexivity|]. cbn [kids_places fst app]. rewrite !places_elem. cbn [kids_places app]. repeat (apply order_skip; [reflexivity|]). exact order_nil.
  - rewrite app_nil_r, places_elem. apply order_skip; [reflexivity|]. apply units_order; assumption.
Qed.
End Order.
