(** C94: how the texts, children, attributes and numbers of a document are read. *)
From Coq Require Import NArith ZArith List Bool String Lia ZifyN ZifyNat ZifyBool.
From Verif Require Import PyStr PyStrFacts Xml RowIter SpecText SpecFmt SpecElem RangeProofs Prop_Fmt.
Import ListNotations.
Local Open Scope list_scope.

(** The text of an element is all the text in it, in order and at any depth, without the white
    space at its ends. *)
Theorem C94_text : forall e t, to_text e = t <-> SpecFmt.trimmed (whole_text e) t.
Proof. intros e t. unfold to_text. change (itertext e) with (whole_text e). apply strip_trimmed. Qed.

(** An attribute is the first one of its name. *)
Theorem C94_attribute : forall n e o, attr n e = o <-> valued n (e_attrs e) o.
Proof.
  intros n [t a x ks] o. unfold attr. cbn [e_attrs]. split.
  - revert o. induction a as [|[m v] a IH]; intros o; cbn [find fst]; [intros <-; constructor|]. destruct (seqb m n) eqn:E.
    + apply seqb_eq in E. subst m. intros <-. constructor.
    + intros H. constructor; [|apply IH, H]. intros ->. rewrite seqb_refl in E. discriminate.
  - induction 1 as [|v a|m v a o NE H IH]; [reflexivity | cbn [find fst]; rewrite seqb_refl; reflexivity|].
    cbn [find fst]. destruct (seqb m n) eqn:E; [apply seqb_eq in E; contradiction | exact IH].
Qed.

(** The children with a tag are these, in the order of the document. *)
Theorem C94_children : forall t e l, children t e = l <-> picked t (e_kids e) l.
Proof.
  intros t [u a x ks] l. unfold children, kids_of. cbn [e_kids]. split.
  - revert l. induction ks as [|[c s] ks IH]; intros l; cbn [filter fst]; [intros <-; constructor|]. destruct (seqb (e_tag c) t) eqn:E; cbn [map fst].
    + apply seqb_eq in E. intros <-. constructor; [exact E | apply IH; reflexivity].
    + intros H. constructor; [|apply IH, H]. intros X. rewrite X, seqb_refl in E. discriminate.
  - induction 1 as [|c s ks l E H IH|c s ks l E H IH]; [reflexivity| |]; cbn [filter fst].
    + rewrite E, seqb_refl. cbn [map fst]. rewrite IH. reflexivity.
    + destruct (seqb (e_tag c) t) eqn:F; [apply seqb_eq in F; contradiction | exact IH].
Qed.

(** The child of number [n] with a tag has [n] of them before it; there is none exactly if there
    are not more than [n]. *)
Theorem C94_child : forall t n e,
  (forall c, nth_child t n e = Some c <-> exists l l', picked t (e_kids e) (l ++ c :: l') /\ List.length l = n)
  /\ (nth_child t n e = None <-> exists l, picked t (e_kids e) l /\ (List.length l <= n)%nat).
Proof.
  intros t n e. unfold nth_child. split.
  - intros c. split.
    + intros H. apply nth_error_split in H as (l & l' & E & L). exists l, l'. split; [apply C94_children, E | exact L].
    + intros (l & l' & P & L). apply C94_children in P. rewrite P, <- L, nth_error_app2, Nat.sub_diag; [reflexivity | lia].
  - rewrite nth_error_None. split; [intros H; exists (children t e); split; [apply C94_children; reflexivity | exact H]|].
    intros (l & P & L). apply C94_children in P. rewrite P. exact L.
Qed.

(** A heading row is one that has a heading cell. *)
Theorem C94_heading : forall e, contains_th e = true <-> exists c s, In (c, s) (e_kids e) /\ e_tag c = utf8 "th".
Proof.
  intros e. unfold contains_th, children, kids_of. split.
  - destruct (filter _ _) as [|[c s] l] eqn:E; [discriminate|]. intros _. assert (I : In (c, s) ((c, s) :: l)) by (left; reflexivity). rewrite <- E in I.
    apply filter_In in I as [I T]. exists c, s. split; [exact I | apply seqb_eq, T].
  - intros (c & s & I & T). assert (J : In (c, s) (filter (fun k => seqb (e_tag (fst k)) t_th) (e_kids e))) by (apply filter_In; split; [exact I | cbn [fst]; rewrite T; reflexivity]).
    destruct (filter _ _); [contradiction | reflexivity].
Qed.

(** What is read of a heading over several columns. *)
Theorem C94_spanning : forall e l, find_colspan e = l <-> below_spanning (e_kids e) l.
Proof.
  intros [u b y ks] l. unfold find_colspan. cbn [e_kids]. split.
  - revert l. induction ks as [|[[t a x qs] s] ks IH]; intros l; cbn [flat_map fst]; [intros <-; constructor|]. destruct (attr a_colspan (Elem t a x qs)) as [v|] eqn:E.
    + apply C94_attribute in E. intros <-. apply (bs_it t a x qs s ks _ v E), IH. reflexivity.
    + apply C94_attribute in E. intros H. apply (bs_other t a x qs s ks l E), IH, H.
  - induction 1 as [|t a x qs s ks l v E H IH|t a x qs s ks l E H IH]; [reflexivity| |]; cbn [flat_map fst];
      apply (C94_attribute a_colspan (Elem t a x qs)) in E; rewrite E, IH; reflexivity.
Qed.

(** A carried cell is the cell without the attribute: all else is kept. *)
Theorem C94_without : forall n e,
  e_tag (del_attr n e) = e_tag e /\ e_text (del_attr n e) = e_text e /\ e_kids (del_attr n e) = e_kids e
  /\ valued n (e_attrs (del_attr n e)) None
  /\ forall m o, m <> n -> valued m (e_attrs (del_attr n e)) o <-> valued m (e_attrs e) o.
Proof.
  intros n [t a x ks]. unfold del_attr. cbn [e_tag e_attrs e_text e_kids]. do 3 (split; [reflexivity|]). split; [|intros m o NM; split].
  - induction a as [|[m v] a IH]; cbn [filter fst]; [constructor|]. destruct (seqb m n) eqn:E; cbn [negb]; [exact IH|].
    constructor; [|exact IH]. intros ->. rewrite seqb_refl in E. discriminate.
  - revert o. induction a as [|[k v] a IH]; cbn [filter fst]; intros o H0; [exact H0|]. destruct (seqb k n) eqn:E; cbn [negb] in H0.
    + apply seqb_eq in E. subst k. constructor; [congruence | apply IH, H0].
    + inversion H0; subst; constructor; [assumption | apply IH; assumption].
  - intros H0. induction H0 as [|v a|k v a o NE H0 IH]; cbn [filter fst].
    + constructor.
    + destruct (seqb m n) eqn:E; cbn [negb]; [apply seqb_eq in E; contradiction | constructor].
    + destruct (seqb k n); cbn [negb]; [exact IH | constructor; assumption].
Qed.

(** ** Numbers *)

Lemma body_grouped s : forall p d, int_body s p = Some d ->
  if p then (s = [] /\ d = []) \/ grouped s d \/ exists u, s = 95%N :: u /\ grouped u d else grouped s d.
Proof.
  induction s as [|c s IH]; intros p d; cbn [int_body].
  - destruct p; [intros [= <-]; left; split; reflexivity | discriminate].
  - destruct (isdigit c) eqn:D.
    + destruct (int_body s true) as [u|] eqn:E; [|discriminate]. intros [= <-]. specialize (IH true u E). cbn iota in IH.
      assert (G : grouped (c :: s) (c :: u)).
      { assert (C : numeral [c]) by (split; [discriminate | constructor; [exact D | constructor]]).
        destruct IH as [[-> ->]|[G|(v & -> & G)]].
        - apply gr_last, C.
        - inversion G as [ds [NE A]|ds t w [NE A] G1]; subst.
          + apply gr_last. split; [discriminate | constructor; assumption].
          + apply (gr_more (c :: ds)); [split; [discriminate | constructor; assumption] | exact G1].
        - apply (gr_more [c]); assumption. }
      destruct p; [right; left|]; exact G.
    + destruct (c =? 95)%N eqn:U; cbn [andb]; [|discriminate]. destruct p; [|discriminate]. intros H. apply N.eqb_eq in U. subst c.
      right. right. exists s. split; [reflexivity | exact (IH false d H)].
Qed.
Lemma body_digits ds : forall p s, all isdigit ds -> int_body (ds ++ s) p = match ds with [] => int_body s p | _ => option_map (app ds) (int_body s true) end.
Proof.
  induction ds as [|c ds IH]; intros p s A; [reflexivity|]. inversion A as [|? ? C A1]; subst. cbn [app int_body]. rewrite C, (IH true s A1).
  destruct ds; [destruct (int_body s true); reflexivity | destruct (int_body s true); reflexivity].
Qed.
Lemma grouped_body s d : grouped s d -> forall p, int_body s p = Some d.
Proof.
  induction 1 as [ds [NE A]|ds s u [NE A] G IH]; intros p.
  - rewrite <- (app_nil_r ds) at 1. rewrite body_digits by exact A. destruct ds; [contradiction|]. cbn [int_body option_map]. rewrite app_nil_r. reflexivity.
  - rewrite body_digits by exact A. destruct ds as [|c ds]; [contradiction|]. cbn [int_body]. replace (isdigit 95) with false by (vm_compute; reflexivity).
    cbn [N.eqb andb]. replace (95 =? 95)%N with true by reflexivity. cbn [andb]. rewrite (IH false). reflexivity.
Qed.
Lemma grouped_ends s d : grouped s d -> (exists c r, s = c :: r /\ isdigit c = true) /\ (exists c r, s = r ++ [c] /\ isdigit c = true).
Proof.
  assert (L : forall ds, numeral ds -> exists c r, ds = r ++ [c] /\ isdigit c = true).
  { intros ds [NE A]. destruct ds as [|c ds] using rev_ind; [contradiction|]. exists c, ds. split; [reflexivity|]. apply Forall_app in A as [_ A]. inversion A; assumption. }
  induction 1 as [ds [NE A]|ds s u [NE A] G [_ (c & r & -> & C)]].
  - split; [|apply L; split; assumption]. destruct ds as [|c ds]; [contradiction|]. inversion A; subst. exists c, ds. auto.
  - split; [destruct ds as [|c' ds]; [contradiction|]; inversion A; subst; exists c'; eexists; split; [reflexivity | assumption]|].
    exists c, (ds ++ 95%N :: r). rewrite <- app_assoc. split; [reflexivity | exact C].
Qed.

(** A number is read exactly from the texts that write one down, and as the number they write. *)
Theorem C94_integer : forall s z, py_int s = Some z <-> writes_integer s z.
Proof.
  assert (SP : forall c, isdigit c = true -> isspace c = false).
  { intros c C. destruct (isspace c) eqn:E; [apply isspace_not_digit in E; congruence | reflexivity]. }
  intros s z. unfold py_int. split.
  - pose proof (proj1 (strip_trimmed s (strip s)) eq_refl) as [(w & w' & E & W & W') _]. cbv zeta. generalize dependent (strip s). intros t E H.
    set (p := match t with [] => _ | _ => _ end) in H.
    assert (Q : exists sign body, t = sign ++ body /\ ((p = (false, body) /\ (sign = [] \/ sign = [43%N])) \/ (p = (true, body) /\ sign = [45%N]))).
    { subst p. destruct t as [|c r]; [exists [], []; auto|]. destruct (c =? 43)%N eqn:A; [apply N.eqb_eq in A; subst c; exists [43%N], r; auto|].
      destruct (c =? 45)%N eqn:B; [apply N.eqb_eq in B; subst c; exists [45%N], r; auto|]. exists [], (c :: r). auto. }
    destruct Q as (sign & body & T & Q). destruct p as [neg b]. assert (b = body) by (destruct Q as [[[= _ X] _]|[[= _ X] _]]; exact X). subst b.
    destruct (int_body body false) as [ds|] eqn:B; [|discriminate]. destruct (_ <=? _)%N eqn:L; [|discriminate]. injection H as <-.
    exists w, sign, body, w', ds. rewrite E, T, <- app_assoc. split; [reflexivity|]. split; [exact W|]. split; [exact W'|]. split; [apply (body_grouped body false ds B)|].
    split; [unfold convertible; unfold int_max_digits in L; lia|]. rewrite <- digits_val_dec. destruct Q as [[[= ->] [-> | ->]]|[[= ->] ->]]; auto.
  - intros (w & sign & body & w' & ds & -> & W & W' & G & C & Z0).
    destruct (grouped_ends body ds G) as [(c & r & E & D) (c' & r' & E' & D')].
    assert (T : strip (w ++ sign ++ body ++ w') = sign ++ body).
    { apply strip_trimmed. split; [exists w, w'; rewrite <- !app_assoc; auto|]. split.
      - intros x u X. destruct Z0 as [[-> _]|[[-> _]|[-> _]]]; cbn [app] in X.
        + rewrite E in X. injection X as <- _. apply SP, D.
        + injection X as <- _. vm_compute. reflexivity.
        + injection X as <- _. vm_compute. reflexivity.
      - intros x u X. rewrite E', app_assoc in X. apply app_inj_tail in X as [_ <-]. apply SP, D'. }
    rewrite T. cbv zeta.
    assert (NC : (c =? 43)%N = false /\ (c =? 45)%N = false).
    { split; [destruct (c =? 43)%N eqn:X | destruct (c =? 45)%N eqn:X]; try reflexivity; apply N.eqb_eq in X; subst c; vm_compute in D; discriminate D. }
    assert (L : (N.of_nat (List.length ds) <=? int_max_digits)%N = true) by (unfold convertible in C; unfold int_max_digits; lia).
    destruct Z0 as [[-> ->]|[[-> ->]|[-> ->]]]; cbn [app].
    + rewrite E in G |- *. rewrite (proj1 NC), (proj2 NC), (grouped_body (c :: r) ds G), L, digits_val_dec. reflexivity.
    + change (43 =? 43)%N with true. cbv iota. rewrite (grouped_body body ds G), L, digits_val_dec. reflexivity.
    + change (45 =? 43)%N with false. change (45 =? 45)%N with true. cbv iota. rewrite (grouped_body body ds G), L, digits_val_dec. reflexivity.
Qed.

(** How far a cell reaches: the integer its attribute writes down, one without the attribute;
    nothing, if the attribute does not write one. *)
Theorem C94_span : forall n e z, span_attr n e = Some z <->
  (valued n (e_attrs e) None /\ z = 1%Z) \/ exists s, valued n (e_attrs e) (Some s) /\ writes_integer s z.
Proof.
  intros n e z. unfold span_attr. destruct (attr n e) as [s|] eqn:E; apply C94_attribute in E.
  - rewrite C94_integer. split; [intros H; right; exists s; split; assumption|]. intros [[H _]|(s' & H & W)].
    + apply C94_attribute in E, H. congruence.
    + apply C94_attribute in E, H. rewrite E in H. injection H as <-. exact W.
  - split; [intros [= <-]; left; split; [exact E | reflexivity]|]. intros [[_ ->]|(s & H & _)]; [reflexivity|]. apply C94_attribute in E, H. congruence.
Qed.

(** ** Samples *)

Definition sample_row : elem :=
  Elem (utf8 "tr") [] []
    [(Elem (utf8 "th") [(utf8 "class", utf8 "x"); (utf8 "colspan", utf8 " +1_0 ")] (utf8 " a") [(Elem (utf8 "p") [] (utf8 "b") [(Elem (utf8 "b") [] (utf8 "c") [], utf8 "d")], utf8 "e ")], utf8 "f");
     (Elem (utf8 "td") [] (utf8 "g") [], [])].
Example C94_sample :
  to_text sample_row = utf8 "abcde fg"
  /\ (exists c, nth_child (utf8 "th") 0 sample_row = Some c /\ span_attr a_colspan c = Some 10%Z /\ span_attr a_rowspan c = Some 1%Z)
  /\ nth_child (utf8 "td") 1 sample_row = None
  /\ contains_th sample_row = true
  /\ map to_text (find_colspan sample_row) = [utf8 "bcd"]
  /\ py_int (utf8 "-12") = Some (-12)%Z /\ py_int (utf8 "1__2") = None /\ py_int (utf8 "- 1") = None.
Proof.
  split; [vm_compute; reflexivity|]. split; [eexists; split; [reflexivity | vm_compute; split; reflexivity]|]. repeat split; vm_compute; reflexivity.
Qed.

Print Assumptions C94_text.
Print Assumptions C94_attribute.
Print Assumptions C94_children.
Print Assumptions C94_child.
Print Assumptions C94_heading.
Print Assumptions C94_spanning.
Print Assumptions C94_without.
Print Assumptions C94_integer.
Print Assumptions C94_span.
Print Assumptions C94_sample.
