(** The queries of the docx stage give what SpecQuery says. *)
From Coq Require Import NArith ZArith List Bool String Lia.
From Verif Require Import PyStr PyStrFacts Docx SpecQuery.
Import ListNotations.
Local Open Scope string_scope.
Local Open Scope list_scope.
Local Open Scope N_scope.

Lemma is_tag_iff t e : is_tag t e = true <-> w_tag e = utf8 t.
Proof. apply seqb_eq. Qed.
Lemma is_tag_false t e : is_tag t e = false <-> w_tag e <> utf8 t.
Proof. rewrite <- is_tag_iff. destruct (is_tag t e); split; congruence. Qed.

Lemma first_with_det {A} (P : A -> Prop) l x y : first_with P l x -> first_with P l y -> x = y.
Proof.
  intros (a & b & -> & PX & F) (a' & b' & E & PY & F'). revert a' E F'. induction a as [|c a IH]; intros [|c' a'] E F'; cbn [app] in E.
  - injection E; auto.
  - injection E as -> E. inversion F'; contradiction.
  - injection E as <- E. inversion F; contradiction.
  - injection E as <- E. inversion F; inversion F'; subst. eauto.
Qed.
Lemma first_filter {A} (f : A -> bool) (P : A -> Prop) : (forall a, f a = true <-> P a) -> forall l x, first (filter f l) = Some x <-> first_with P l x.
Proof.
  intros H l x. split.
  - induction l as [|a l IH]; cbn [filter]; [discriminate|]. destruct (f a) eqn:F.
    + intros [= ->]. exists [], l. split; [reflexivity|]. split; [apply H; exact F | constructor].
    + intros E. destruct (IH E) as (l1 & l2 & -> & PX & NP). exists (a :: l1), l2. split; [reflexivity|]. split; [exact PX|].
      constructor; [|exact NP]. intros PA. apply H in PA. congruence.
  - intros (l1 & l2 & -> & PX & NP). induction NP as [|a l1 NA NP IH]; cbn [app filter].
    + rewrite (proj2 (H x) PX). reflexivity.
    + destruct (f a) eqn:F; [exfalso; apply NA, H, F | exact IH].
Qed.
Lemma first_child_iff t e x : elem_first [t] e = Some x <-> first_child t e x.
Proof.
  unfold elem_first. cbn [w_path]. rewrite flat_map_concat_map. replace (List.concat (map (fun x => [x]) (w_children t e))) with (w_children t e).
  - unfold w_children. apply first_filter. intros a. apply is_tag_iff.
  - induction (w_children t e) as [|a l IH]; cbn [map List.concat]; [reflexivity|]. cbn [app]. rewrite <- IH. reflexivity.
Qed.
Lemma attr_here a e : attr_first [] a e = w_attr a e.
Proof. unfold attr_first. cbn [w_path flat_map]. destruct (w_attr a e); reflexivity. Qed.

(** The first of the results of [g] on the elements with [f]. *)
Section Bind.
Context {B : Type}.
Variables (f : welem -> bool) (g : welem -> list B) (P : welem -> Prop) (Q : welem -> B -> Prop).
Hypothesis FP : forall x, f x = true <-> P x.
Hypothesis GQ : forall x b, first (g x) = Some b <-> Q x b.
Lemma first_bind l b : first (flat_map g (filter f l)) = Some b <->
  exists x, first_with (fun x => P x /\ exists b, Q x b) l x /\ Q x b.
Proof.
  split.
  - induction l as [|k l IH]; cbn [filter]; [discriminate|].
    assert (SKIP : (forall b, ~ (P k /\ Q k b)) -> first (flat_map g (filter f l)) = Some b -> exists x, first_with (fun x => P x /\ exists b, Q x b) (k :: l) x /\ Q x b).
    { intros N E. destruct (IH E) as (x & (l1 & l2 & -> & PX & NP) & V). exists x. split; [|exact V]. exists (k :: l1), l2. split; [reflexivity|]. split; [exact PX|].
      constructor; [|exact NP]. intros (X & b' & Y). exact (N b' (conj X Y)). }
    destruct (f k) eqn:FK.
    + cbn [flat_map]. destruct (g k) as [|b0 r] eqn:G; cbn [app].
      * apply SKIP. intros b' [_ X]. apply GQ in X. rewrite G in X. discriminate.
      * cbn [first]. intros [= ->]. assert (Q k b) by (apply GQ; rewrite G; reflexivity). exists k. split; [|assumption].
        exists [], l. split; [reflexivity|]. split; [split; [apply FP; exact FK | eauto] | constructor].
    + apply SKIP. intros b' [X _]. apply FP in X. congruence.
  - intros (x & (l1 & l2 & -> & (PX & _) & NP) & V). induction NP as [|k l1 NA NP IH]; cbn [app filter].
    + rewrite (proj2 (FP x) PX). cbn [flat_map]. apply GQ in V. destruct (g x); [discriminate V | exact V].
    + destruct (f k) eqn:FK; [|exact IH]. cbn [flat_map]. destruct (g k) as [|b0 r] eqn:G; [exact IH|].
      exfalso. apply NA. split; [apply FP; exact FK|]. exists b0. apply GQ. rewrite G. reflexivity.
Qed.
End Bind.

Lemma flat_map_flat {A B C} (f : A -> list B) (g : B -> list C) l : flat_map g (flat_map f l) = flat_map (fun x => flat_map g (f x)) l.
Proof. induction l as [|a l IH]; cbn [flat_map]; [reflexivity|]. rewrite flat_map_app, IH. reflexivity. Qed.

Lemma first_value_iff ts a : forall e v, attr_first ts a e = Some v <-> first_value ts a e v.
Proof.
  induction ts as [|t ts IH]; intros e v; [rewrite attr_here; reflexivity|].
  unfold attr_first. cbn [w_path first_value]. rewrite flat_map_flat. unfold w_children. apply first_bind.
  - intros x. apply is_tag_iff.
  - intros x b. apply IH.
Qed.
Lemma no_value_iff ts a e : attr_first ts a e = None <-> no_value ts a e.
Proof.
  unfold no_value. split.
  - intros E v V. apply first_value_iff in V. congruence.
  - intros N. destruct (attr_first ts a e) as [v|] eqn:E; [|reflexivity]. exfalso. exact (N v (proj1 (first_value_iff _ _ _ _) E)).
Qed.
Lemma first_elem_iff ts : forall e x, elem_first ts e = Some x <-> first_elem ts e x.
Proof.
  induction ts as [|t ts IH]; intros e x.
  - cbn. split; congruence.
  - unfold elem_first. cbn [w_path first_elem]. unfold w_children. apply first_bind.
    + intros y. apply is_tag_iff.
    + intros y b. apply IH.
Qed.
Lemma no_elem_iff ts e : elem_first ts e = None <-> no_elem ts e.
Proof.
  unfold no_elem. split.
  - intros E v V. apply first_elem_iff in V. congruence.
  - intros N. destruct (elem_first ts e) as [v|] eqn:E; [|reflexivity]. exfalso. exact (N v (proj1 (first_elem_iff _ _ _) E)).
Qed.
Lemma child_value_iff t a e v : attr_first [t] a e = Some v <-> child_value t a e v.
Proof. exact (first_value_iff [t] a e v). Qed.
Lemma no_child_iff t e : elem_first [t] e = None <-> (forall x, ~ child t e x).
Proof.
  unfold child. split.
  - intros E x [I T]. destruct (elem_first [t] e) eqn:F; [discriminate|]. clear E. unfold elem_first in F. cbn [w_path] in F.
    assert (J : In x (w_children t e)) by (apply filter_In; split; [exact I | apply is_tag_iff; exact T]).
    destruct (w_children t e); [destruct J | discriminate F].
  - intros N. destruct (elem_first [t] e) as [x|] eqn:E; [|reflexivity]. exfalso. apply first_child_iff in E as (a & b & E & T & _).
    apply (N x). split; [rewrite E; apply in_or_app; right; left; reflexivity | exact T].
Qed.
Lemma first_value_det ts a e v v' : first_value ts a e v -> first_value ts a e v' -> v = v'.
Proof. rewrite <- !first_value_iff. congruence. Qed.
Lemma first_elem_det ts e v v' : first_elem ts e v -> first_elem ts e v' -> v = v'.
Proof. rewrite <- !first_elem_iff. congruence. Qed.
Lemma d_int_iff s z : d_int s = DOk z <-> py_int s = Some z.
Proof. unfold d_int. destruct (py_int s); split; congruence. Qed.
Lemma first_number_iff ts a e z : (dlet s <- attr_first_req ts a e; d_int s) = DOk z <-> first_number ts a e z.
Proof.
  unfold first_number, attr_first_req. destruct (attr_first ts a e) as [s|] eqn:A; cbn [dbind].
  - apply first_value_iff in A. rewrite d_int_iff. split; [eauto|]. intros (s' & V & P). rewrite (first_value_det _ _ _ _ _ A V). exact P.
  - split; [discriminate|]. intros (s & V & _). apply first_value_iff in V. congruence.
Qed.

(** ** The pieces of a text between commas *)
Lemma split_char_join t : t = join [44] (split_char 44 t) /\ split_char 44 t <> [] /\ Forall (fun p => ~ In 44 p) (split_char 44 t).
Proof.
  induction t as [|x t (E & NE & C)]; cbn [split_char].
  - split; [reflexivity|]. split; [discriminate|]. constructor; [intros [] | constructor].
  - destruct (N.eqb_spec x 44) as [->|N].
    + split; [|split; [discriminate|constructor; [intros []|exact C]]]. destruct (split_char 44 t); [congruence|].
      cbn [join app]. rewrite E at 1. reflexivity.
    + destruct (split_char 44 t) as [|w ws]; [congruence|]. inversion C as [|? ? C1 C2].
      split; [|split; [discriminate|constructor; [intros [Z|Z]; [congruence | exact (C1 Z)]|exact C2]]].
      destruct ws; cbn [join app] in *; congruence.
Qed.
Lemma split_char_unique ps : ps <> [] -> Forall (fun p => ~ In 44 p) ps -> split_char 44 (join [44] ps) = ps.
Proof.
  assert (N1 : forall s, ~ In 44 s -> split_char 44 s = [s]).
  { induction s as [|x s IH]; intros N; [reflexivity|]. cbn [split_char]. destruct (N.eqb_spec x 44) as [->|_]; [destruct N; left; reflexivity|].
    rewrite IH by (intros I; apply N; right; exact I). reflexivity. }
  assert (N2 : forall s t, ~ In 44 s -> split_char 44 (s ++ 44 :: t) = s :: split_char 44 t).
  { induction s as [|x s IH]; intros t N; [reflexivity|]. cbn [app split_char]. destruct (N.eqb_spec x 44) as [->|_]; [destruct N; left; reflexivity|].
    rewrite IH by (intros I; apply N; right; exact I). reflexivity. }
  induction ps as [|p ps IH]; intros NE C; [congruence|]. inversion C as [|? ? C1 C2]; subst.
  destruct ps as [|q ps]; [apply N1; exact C1|].
  change (join [44] (p :: q :: ps)) with (p ++ 44 :: join [44] (q :: ps)). rewrite N2 by exact C1. rewrite IH; [reflexivity | discriminate | exact C2].
Qed.
