(** What stands where in the document written for a docx document. *)
From Coq Require Import NArith ZArith List Bool String Lia.
From Coq Require Import ZifyBool ZifyN ZifyNat.
From Verif Require Import PyStr PyStrFacts Xml Docx Render Css SpecText SpecFmt SpecHtml SpecDocx SpecCss CssRead CssProofs.
From Verif Require Import HtmlProofs DocxParts CssCascade.
Import ListNotations.
Local Open Scope string_scope.
Local Open Scope list_scope.
Local Open Scope N_scope.

Section Places.
Variables (tr cr : list (str * list (str * str))).
Variables (SPAN : span -> Prop) (CELL : tcell -> Prop) (LIST : lvl -> list litem -> Prop).

(** Elements outside lists. *)
Definition special : list str := map utf8 ["span"; "td"; "th"; "ol"; "ul"].
Inductive flow : elem -> Prop :=
| fl_span sp e tail : SPAN sp -> span_shows tr sp (e, tail) -> flow e
| fl_cell t a x ks : CELL t -> cell_attributes cr t a -> tc_tag t = utf8 "td" \/ tc_tag t = utf8 "th" -> (forall k tl, In (k, tl) ks -> flow k) -> flow (Elem (tc_tag t) a x ks)
| fl_other t a x ks : ~ In t special -> (forall w, ~ In (utf8 "class", w) a) -> (forall k tl, In (k, tl) ks -> flow k) -> flow (Elem t a x ks)
| fl_list l its e : LIST l its -> list_shows tr l its e -> flow e.

Lemma spans_flow sps ks : (forall sp, In sp sps -> SPAN sp) -> Forall2 (span_shows tr) sps ks -> forall k tl, In (k, tl) ks -> flow k.
Proof.
  intros S F. induction F as [|sp k sps ks H _ IH]; intros k' tl' I; [destruct I|]. destruct I as [->|I].
  - eapply fl_span; [apply S; left; reflexivity | exact H].
  - eapply IH; [|exact I]. intros sp' X. apply S. right. exact X.
Qed.
Ltac notin := intros H; vm_compute in H; repeat (destruct H as [H|H]; [discriminate H|]); exact H.
Ltac noclass := let H := fresh in intros ? H; cbn in H; repeat (destruct H as [H|H]; [discriminate H|]); exact H.
Definition unit_in (u : hunit) : Prop :=
  (forall sp, span_in u sp -> SPAN sp) /\ (forall t, cell_in u t -> CELL t /\ (tc_tag t = utf8 "td" \/ tc_tag t = utf8 "th")) /\ (forall l its, list_in u l its -> LIST l its).
Definition cell_has (t : tcell) : Prop := CELL t /\ (tc_tag t = utf8 "td" \/ tc_tag t = utf8 "th") /\ Forall unit_in (tc_elems t).
Lemma units_flow :
  (forall u e, shows tr cr u e -> unit_in u -> flow e)
  /\ (forall y rows ks, rows_show tr cr y rows ks -> Forall (Forall cell_has) rows -> forall k tl, In (k, tl) ks -> flow k)
  /\ (forall y x ts ks, cells_show tr cr y x ts ks -> Forall cell_has ts -> forall k tl, In (k, tl) ks -> flow k)
  /\ (forall us ks, units_show tr cr us ks -> Forall unit_in us -> forall k tl, In (k, tl) ks -> flow k).
Proof.
  apply all_shows_mut.
  - intros sps x ks _ F (S & _). apply fl_other; [notin | intros w []|]. apply (spans_flow sps); [|exact F]. intros sp I. apply S. constructor. exact I.
  - intros l its e H (_ & _ & L). eapply fl_list; [apply L; constructor | exact H].
  - intros wid id rows x ks _ _ IH (S & C & L). apply fl_other; [notin | destruct id as [[|i id]|]; noclass |]. apply IH.
    apply Forall_forall. intros row IR. apply Forall_forall. intros t IT.
    destruct (C t (ci_cell wid id rows row t IR IT)) as [C1 C2]. split; [exact C1|]. split; [exact C2|]. apply Forall_forall. intros u IU. split; [|split].
    + intros sp H. apply S. eapply si_table; eassumption.
    + intros t' H. apply C. eapply ci_table; eassumption.
    + intros l its H. apply L. eapply li_table; eassumption.
  - intros y _ k tl [].
  - intros y row rows x ks tail rest _ _ _ IH1 _ IH2 F k tl I. inversion F; subst. destruct I as [E|I]; [|eapply IH2; eassumption]. injection E as <- <-.
    apply fl_other; [notin | intros w [] | apply IH1; assumption].
  - intros y x _ k tl [].
  - intros y x t ts ks _ _ IH F. inversion F; subst. apply IH. assumption.
  - intros y x t ts a ks tail rest _ A _ IHu _ _ IHc F k tl I. inversion F as [|? ? (C1 & C2 & C3) F']; subst. destruct I as [E|I]; [|eapply IHc; eassumption]. injection E as <- <-.
    apply fl_cell; [exact C1 | exact A | exact C2 | exact (IHu C3)].
  - intros _ k tl [].
  - intros u us e tail ks _ IH1 _ _ IH2 F k tl I. inversion F; subst. destruct I as [E|I]; [injection E as <- <-; auto | eapply IH2; eassumption].
Qed.
Theorem document_flow version fname title rev us root : document_shows tr cr version fname title rev us root -> Forall unit_in us -> flow root.
Proof.
  intros (xh & xb & x1 & t1 & t2 & t3 & t4 & t5 & t6 & ks & -> & _ & U) F.
  apply fl_other; [notin | noclass|]. intros k tl [E|[E|[]]]; injection E as <- <-.
  - apply fl_other; [notin | noclass|]. intros k tl I. cbn [In] in I.
    repeat (destruct I as [E|I]; [injection E as <- <-; apply fl_other; [notin | try (destruct rev; noclass); noclass | intros k' tl' []]|]). destruct I.
  - apply fl_other; [notin | noclass|]. destruct units_flow as (_ & _ & _ & H). exact (H us ks U F).
Qed.

(** ** Places *)

(** Elements in the list [l0] with the items [its0], in the innermost lists [ls]. *)
Section InList.
Variables (l0 : lvl) (its0 : list litem).
Inductive in_list : list lvl -> elem -> Prop :=
| il_list l its ls e : list_path l0 its0 (l :: ls) its -> list_shows tr l its e -> in_list ls e
| il_li ls x ks : (forall k tl, In (k, tl) ks -> in_list ls k) -> in_list ls (Elem (utf8 "li") [] x ks)
| il_span sp ls e tail : SPAN sp -> span_shows tr sp (e, tail) -> in_list ls e.
Hypothesis list_spans0 : forall i sp, In i its0 -> item_span i sp -> SPAN sp.
Lemma path_spans ls its : list_path l0 its0 ls its -> forall i sp, In i its -> item_span i sp -> SPAN sp.
Proof.
  induction 1 as [|ls its l sub _ IH I]; [exact list_spans0|]. intros i sp J X. exact (IH _ _ I (ip_sub l sub i sp J X)).
Qed.
Lemma spans_in ls sps ks : (forall sp, In sp sps -> SPAN sp) -> Forall2 (span_shows tr) sps ks -> forall k tl, In (k, tl) ks -> in_list ls k.
Proof.
  intros S F. induction F as [|sp k sps ks H _ IH]; intros k' tl' I; [destruct I|]. destruct I as [->|I].
  - eapply il_span; [apply S; left; reflexivity | exact H].
  - eapply IH; [|exact I]. intros sp' X. apply S. right. exact X.
Qed.
Lemma items_in ls its : list_path l0 its0 ls its -> forall its1 ks, items_show tr its1 ks -> (forall i, In i its1 -> In i its) -> forall k tl, In (k, tl) ks -> in_list ls k.
Proof.
  intros P its1 ks H. assert (S := path_spans _ _ P). induction H; intros N k tl0 I.
  - destruct I.
  - destruct I as [E|I].
    + injection E as <- <-. apply il_li. apply (spans_in ls sps); [|assumption]. intros sp X. apply (S (LItem sps)); [apply N; left; reflexivity | constructor; exact X].
    + eapply IHitems_show; [|exact I]. intros i J. apply N. right. exact J.
  - destruct I as [E|I].
    + injection E as <- <-. apply il_li. intros k tl' I. apply in_app_iff in I as [I|[E|[]]].
      * eapply (spans_in ls sps); [|eassumption | exact I]. intros sp X. apply (S (LItem sps)); [apply N; left; reflexivity | constructor; exact X].
      * injection E as <- <-. apply (il_list l sub ls); [|assumption]. apply (lp_sub _ _ ls its); [exact P | apply N; right; left; reflexivity].
    + eapply IHitems_show; [|exact I]. intros i J. apply N. right; right. exact J.
  - destruct I as [E|I].
    + injection E as <- <-. apply il_li. intros k tl' [E|[]]. injection E as <- <-. apply (il_list l sub ls); [|assumption]. apply (lp_sub _ _ ls its); [exact P | apply N; left; reflexivity].
    + eapply IHitems_show; [|exact I]. intros i J. apply N. right. exact J.
Qed.
End InList.

Hypothesis list_spans : forall l its, LIST l its -> forall i sp, In i its -> item_span i sp -> SPAN sp.
Lemma lvl_elem l : lvl_tag l = utf8 "ol" \/ lvl_tag l = utf8 "ul".
Proof. unfold lvl_tag. destruct (is_ordered l); auto. Qed.
(** The chain of lists at a place in a list. *)
Inductive spot : place -> Prop :=
| so_flow e i up : flow e -> list_chain up [] -> spot ((e, i) :: up)
| so_list l0 its0 e i up ls its : LIST l0 its0 -> in_list l0 its0 ls e -> list_path l0 its0 ls its -> list_chain up ls -> spot ((e, i) :: up).
Lemma list_head_chain l its e i up ls : list_shows tr l its e -> list_chain up ls -> list_chain ((e, i) :: up) (l :: ls).
Proof. intros H C. inversion H; subst. apply lc_list; [apply lvl_elem | reflexivity | reflexivity | exact C]. Qed.
Lemma not_list t a x ks : t <> utf8 "ol" -> t <> utf8 "ul" -> ~ list_elem (Elem t a x ks).
Proof. intros A B [H|H]; cbn [e_tag] in H; congruence. Qed.
Theorem place_spot root p : flow root -> place_in root p -> spot p.
Proof.
  intros F. induction 1 as [|e i p j k t P IH N]; [apply so_flow; [exact F | constructor]|].
  assert (K : In (k, t) (e_kids e)) by (apply nth_error_In in N; exact N).
  inversion IH as [e' i' up FL LC|l0 its0 e' i' up ls its LI IL LP LC]; subst.
  - destruct FL as [sp e tail S H|t' a x ks C A T H|t' a x ks T A H|l its e L H].
    + destruct H as (a & E & _). injection E as -> _. destruct K.
    + apply so_flow; [exact (H _ _ K)|]. apply lc_other; [|exact LC]. destruct T as [-> | ->]; apply not_list; discriminate.
    + apply so_flow; [exact (H _ _ K)|]. apply lc_other; [|exact LC]. apply not_list; intros ->; apply T; unfold special; cbn; tauto.
    + pose proof (list_head_chain _ _ _ i _ _ H LC) as C. inversion H; subst. cbn [e_kids] in K.
      eapply (so_list l its); [exact L | eapply (items_in l its (list_spans _ _ L) [l] its (lp_top l its)); [eassumption | auto | exact K] | apply lp_top | exact C].
  - destruct IL as [l its1 ls e LP1 H|ls x ks H|sp ls e tail S H].
    + pose proof (list_head_chain _ _ _ i _ _ H LC) as C. inversion H; subst. cbn [e_kids] in K.
      eapply (so_list l0 its0); [exact LI | eapply (items_in l0 its0 (list_spans _ _ LI) _ _ LP1); [eassumption | auto | exact K] | exact LP1 | exact C].
    + eapply (so_list l0 its0); [exact LI | exact (H _ _ K) | exact LP | apply lc_other; [apply not_list; discriminate | exact LC]].
    + destruct H as (a & E & _). injection E as -> _. destruct K.
Qed.
(** Spans, cells and lists. *)
Theorem place_span root p e i : flow root -> place_in root ((e, i) :: p) -> e_tag e = utf8 "span" -> exists sp tail, SPAN sp /\ span_shows tr sp (e, tail).
Proof.
  intros F P T. assert (S := place_spot _ _ F P).
  assert (LN : forall l its, ~ list_shows tr l its e).
  { intros l its H. inversion H; subst. cbn [e_tag] in T. destruct (lvl_elem l) as [X|X]; rewrite X in T; discriminate. }
  inversion S as [e' i' up FL LC|l0 its0 e' i' up ls its LI IL LP LC]; subst.
  - destruct FL as [sp e tail SP H|t' a x ks C A TT H|t' a x ks TT A H|l its e L H]; [eauto | | | destruct (LN _ _ H)].
    + cbn [e_tag] in T. destruct TT as [X|X]; rewrite X in T; discriminate.
    + cbn [e_tag] in T. exfalso. apply TT. rewrite T. left. reflexivity.
  - destruct IL as [l its1 ls e LP1 H|ls x ks H|sp ls e tail SP H]; [destruct (LN _ _ H) | discriminate T | eauto].
Qed.
Theorem place_cell root p e i : flow root -> place_in root ((e, i) :: p) -> e_tag e = utf8 "td" \/ e_tag e = utf8 "th" ->
  exists t, CELL t /\ e_tag e = tc_tag t /\ cell_attributes cr t (e_attrs e).
Proof.
  intros F P T. assert (S := place_spot _ _ F P).
  assert (LN : forall l its, ~ list_shows tr l its e).
  { intros l its H. inversion H; subst. cbn [e_tag] in T. destruct (lvl_elem l) as [X|X]; rewrite X in T; destruct T; discriminate. }
  assert (SN : forall sp tl, ~ span_shows tr sp (e, tl)).
  { intros sp tl (a & E & _). injection E as -> _. destruct T as [T|T]; discriminate T. }
  inversion S as [e' i' up FL LC|l0 its0 e' i' up ls its LI IL LP LC]; subst.
  - destruct FL as [sp e tail SP H|t' a x ks C A TT H|t' a x ks TT A H|l its e L H]; [destruct (SN _ _ H) | eauto | | destruct (LN _ _ H)].
    exfalso. apply TT. cbn [e_tag] in T. unfold special. destruct T as [-> | ->]; cbn; tauto.
  - destruct IL as [l its1 ls e LP1 H|ls x ks H|sp ls e tail SP H]; [destruct (LN _ _ H) | destruct T as [T|T]; discriminate T | destruct (SN _ _ H)].
Qed.
Theorem place_list root p e i : flow root -> place_in root ((e, i) :: p) -> list_elem e ->
  exists l0 its0 l ls its, LIST l0 its0 /\ list_path l0 its0 (l :: ls) its /\ list_shows tr l its e /\ list_chain p ls.
Proof.
  intros F P T. assert (S := place_spot _ _ F P).
  assert (SN : forall sp tl, ~ span_shows tr sp (e, tl)).
  { intros sp tl (a & E & _). injection E as -> _. destruct T as [T|T]; discriminate T. }
  inversion S as [e' i' up FL LC|l0 its0 e' i' up ls its LI IL LP LC]; subst.
  - destruct FL as [sp e tail SP H|t' a x ks C A TT H|t' a x ks TT A H|l its e L H]; [destruct (SN _ _ H) | | |].
    + exfalso. unfold list_elem in T. cbn [e_tag] in T. destruct TT as [X|X]; rewrite X in T; destruct T; discriminate.
    + exfalso. apply TT. unfold list_elem in T. cbn [e_tag] in T. unfold special. destruct T as [-> | ->]; cbn; tauto.
    + exists l, its, l, [], its. split; [exact L|]. split; [apply lp_top|]. auto.
  - destruct IL as [l its1 ls e LP1 H|ls x ks H|sp ls e tail SP H]; [|destruct T as [T|T]; discriminate T | destruct (SN _ _ H)].
    exists l0, its0, l, ls, its1. auto.
Qed.
(** Paragraphs and tables have no class. *)
Theorem place_plain root p e i : flow root -> place_in root ((e, i) :: p) -> ~ In (e_tag e) special -> forall w, ~ In (utf8 "class", w) (e_attrs e).
Proof.
  intros F P T. assert (S := place_spot _ _ F P).
  assert (SN : forall sp tl, ~ span_shows tr sp (e, tl)).
  { intros sp tl (a & E & _). injection E as -> _. apply T. left. reflexivity. }
  assert (LN : forall l its, ~ list_shows tr l its e).
  { intros l its H. inversion H; subst. apply T. cbn [e_tag]. unfold special. destruct (lvl_elem l) as [X|X]; rewrite X; cbn; tauto. }
  inversion S as [e' i' up FL LC|l0 its0 e' i' up ls its LI IL LP LC]; subst.
  - destruct FL as [sp e tail SP H|t' a x ks C A TT H|t' a x ks TT A H|l its e L H]; [destruct (SN _ _ H) | | exact A | destruct (LN _ _ H)].
    exfalso. apply T. cbn [e_tag]. unfold special. destruct TT as [-> | ->]; cbn; tauto.
  - destruct IL as [l its1 ls e LP1 H|ls x ks H|sp ls e tail SP H]; [destruct (LN _ _ H) | intros w [] | destruct (SN _ _ H)].
Qed.
End Places.
