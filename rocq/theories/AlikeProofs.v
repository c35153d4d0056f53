(** Stage 2 on documents that differ only in formatting. *)
From Coq Require Import NArith ZArith List Bool String Lia.
From Verif Require Import PyStr PyStrFacts Regex Regexes Xml Json Lint RowIter Helpers Extract Document Output SpecElem SpecAlike Prop_Doc.
Import ListNotations.
Local Open Scope list_scope.
Local Open Scope m_scope.

(** ** Elements *)

Lemma whole_text_eq : forall e, whole_text e = itertext e.
Proof. reflexivity. Qed.

Definition value_of (n : str) (a : list (str * str)) : option str :=
  match find (fun p => seqb (fst p) n) a with Some p => Some (snd p) | None => None end.
Lemma valued_iff n a o : valued n a o <-> value_of n a = o.
Proof.
  unfold value_of. split.
  - induction 1 as [|v a|m v a o N H IH]; [reflexivity | cbn [find fst]; rewrite seqb_refl; reflexivity|].
    cbn [find fst]. destruct (seqb m n) eqn:E; [apply seqb_eq in E; contradiction | exact IH].
  - revert o. induction a as [|[m v] a IH]; intros o; cbn [find fst]; [intros <-; constructor|]. destruct (seqb m n) eqn:E.
    + apply seqb_eq in E. subst m. intros <-. constructor.
    + intros H. constructor; [|apply IH, H]. intros ->. rewrite seqb_refl in E. discriminate.
Qed.
Definition same (a a' : list (str * str)) : Prop := forall n, In n looked_at -> value_of n a = value_of n a'.
Lemma same_iff a a' : same_values a a' -> same a a'.
Proof. intros H n I. symmetry. apply valued_iff, (H n _ I), valued_iff. reflexivity. Qed.

Definition K (k k' : kid) : Prop := alike (fst k) (fst k') /\ snd k = snd k'.
(** Two elements that are alike down to their children. *)
Definition N (e e' : elem) : Prop :=
  e_tag e = e_tag e' /\ same (e_attrs e) (e_attrs e') /\ e_text e = e_text e' /\ Forall2 K (e_kids e) (e_kids e').

Lemma alike_tag e e' : alike e e' -> e_tag e = e_tag e'.
Proof. intros []; reflexivity. Qed.
Lemma alike_attr n e e' : In n looked_at -> alike e e' -> attr n e = attr n e'.
Proof. intros I H. destruct H; apply (same_iff _ _ ltac:(eassumption) n I). Qed.
Lemma alike_node e e' : In (e_tag e) structural -> alike e e' -> N e e'.
Proof.
  intros I H. destruct H as [t a a' x x' ks ks' H S C E|t a a' x ks ks' S F]; [contradiction|].
  repeat split; [apply same_iff, S | exact F].
Qed.
Lemma kids_text ks ks' : (forall k k', In k ks -> alike (fst k) k' -> itertext (fst k) = itertext k') -> Forall2 K ks ks' ->
  flat_map (fun k => itertext (fst k) ++ snd k) ks = flat_map (fun k => itertext (fst k) ++ snd k) ks'.
Proof.
  intros H F. induction F as [|k k' ks ks' [A B] F IH]; [reflexivity|]. cbn [flat_map]. f_equal; [f_equal; [apply H; [left; reflexivity | exact A] | exact B]|].
  apply IH. intros q q' I. apply H. right. exact I.
Qed.
Lemma alike_text : forall e e', alike e e' -> itertext e = itertext e'.
Proof.
  fix IH 1. intros [t a x ks] e' H. inversion H as [? ? a' ? x' ? ks' NI S C E|? ? a' ? ? ks' S F]; subst; [rewrite <- !whole_text_eq; exact E|].
  cbn [itertext]. f_equal. clear H S. revert ks' F. induction ks as [|k ks IK]; intros ks' F; inversion F as [|? k' ? ks1 [A B] F1]; subst; [reflexivity|].
  cbn [flat_map]. f_equal; [f_equal; [exact (IH _ _ A) | exact B]|]. apply IK, F1.
Qed.
Lemma N_text e e' : N e e' -> itertext e = itertext e'.
Proof.
  destruct e as [t a x ks], e' as [t' a' x' ks']. intros (_ & _ & E & F). cbn [e_text e_kids] in *. subst x'. cbn [itertext]. f_equal.
  apply kids_text; [|exact F]. intros k k' _. apply alike_text.
Qed.
Lemma alike_to_text e e' : alike e e' -> to_text e = to_text e'.
Proof. intros H. unfold to_text. rewrite (alike_text _ _ H). reflexivity. Qed.
Lemma N_to_text e e' : N e e' -> to_text e = to_text e'.
Proof. intros H. unfold to_text. rewrite (N_text _ _ H). reflexivity. Qed.

Lemma filter2 {A} (R : A -> A -> Prop) (p : A -> bool) l l' : (forall x y, R x y -> p x = p y) -> Forall2 R l l' -> Forall2 R (filter p l) (filter p l').
Proof. intros H F. induction F as [|x y l l' X F IH]; [constructor|]. cbn [filter]. rewrite <- (H x y X). destruct (p x); [constructor; assumption | exact IH]. Qed.
(** What is found with a tag. *)
Definition B (t : str) (e e' : elem) : Prop := alike e e' /\ e_tag e = t.
Lemma kids_of2 t e e' : N e e' -> Forall2 (fun k k' => K k k' /\ e_tag (fst k) = t) (kids_of t e) (kids_of t e').
Proof.
  intros (_ & _ & _ & F). unfold kids_of. induction F as [|k k' ks ks' [A C] F IH]; [constructor|]. cbn [filter]. rewrite <- (alike_tag _ _ A).
  destruct (seqb (e_tag (fst k)) t) eqn:E; [|exact IH]. constructor; [|exact IH]. split; [split; assumption | apply seqb_eq, E].
Qed.
Lemma children2 t e e' : N e e' -> Forall2 (B t) (children t e) (children t e').
Proof.
  intros H. apply (kids_of2 t) in H. unfold children. induction H as [|k k' ks ks' [[A C] T] F IH]; [constructor|]. cbn [map]. constructor; [split; assumption | exact IH].
Qed.
Lemma nth2 {A} (R : A -> A -> Prop) l l' n : Forall2 R l l' ->
  (exists x x', nth_error l n = Some x /\ nth_error l' n = Some x' /\ R x x') \/ (nth_error l n = None /\ nth_error l' n = None).
Proof.
  intros F. revert n. induction F as [|x y l l' X F IH]; intros [|n]; cbn [nth_error]; try (right; split; reflexivity); [|apply IH].
  left. exists x, y. repeat split. exact X.
Qed.
Lemma child2 t n e e' : N e e' ->
  (exists c c', nth_child t n e = Some c /\ nth_child t n e' = Some c' /\ B t c c') \/ (nth_child t n e = None /\ nth_child t n e' = None).
Proof. intros H. apply (nth2 (B t)), children2, H. Qed.
Lemma B_node t e e' : In t structural -> B t e e' -> N e e'.
Proof. intros I [A E]. apply alike_node; [rewrite E; exact I | exact A]. Qed.
Ltac struct := vm_compute; tauto.
Lemma th2 e e' : N e e' -> contains_th e = contains_th e'.
Proof. intros H. unfold contains_th. destruct (children2 t_th e e' H); reflexivity. Qed.
Lemma td_empty2 e e' : N e e' ->
  match children t_td e with [] => false | _ => true end = match children t_td e' with [] => false | _ => true end.
Proof. intros H. destruct (children2 t_td e e' H); reflexivity. Qed.
Lemma colspan2 e e' : N e e' -> extract_possible_colspan e = extract_possible_colspan e'.
Proof.
  intros (_ & _ & _ & F). unfold extract_possible_colspan, find_colspan. induction F as [|k k' ks ks' [A C] F IH]; [reflexivity|].
  cbn [flat_map]. rewrite !flat_map_app, IH. f_equal.
  rewrite <- (alike_attr a_colspan _ _ ltac:(struct) A). destruct (attr a_colspan (fst k)) as [v|] eqn:E; [|reflexivity].
  destruct A as [t a a' x x' l l' NI S V T|t a a' x l l' S G].
  - apply valued_iff in V. unfold attr in E. cbn [e_attrs] in E. unfold value_of in V. rewrite V in E. discriminate.
  - cbn [e_kids]. clear - G. induction G as [|q q' l l' [A C] G IG]; [reflexivity|]. cbn [map flat_map]. rewrite (alike_to_text _ _ A), IG. reflexivity.
Qed.

(** ** Rows *)

Lemma span2 n e e' : In n looked_at -> alike e e' -> span_attr n e = span_attr n e'.
Proof. intros I A. unfold span_attr. rewrite (alike_attr n _ _ I A). reflexivity. Qed.
Lemma value_filter n m a : value_of n (filter (fun p => negb (seqb (fst p) m)) a) = if seqb n m then None else value_of n a.
Proof.
  unfold value_of. induction a as [|[k v] a IH]; cbn [filter find fst]; [destruct (seqb n m); reflexivity|].
  destruct (seqb k m) eqn:E; cbn [negb].
  - apply seqb_eq in E. subst k. rewrite IH. destruct (seqb n m) eqn:F; [reflexivity|]. destruct (seqb m n) eqn:G; [|reflexivity].
    apply seqb_eq in G. subst n. rewrite seqb_refl in F. discriminate.
  - cbn [find fst]. destruct (seqb k n) eqn:G; [|exact IH]. apply seqb_eq in G. subst k. rewrite E. reflexivity.
Qed.
Lemma del2 m e e' : alike e e' -> alike (del_attr m e) (del_attr m e').
Proof.
  intros H. destruct H as [t a a' x x' ks ks' NI S V E|t a a' x ks ks' S F]; unfold del_attr; cbn [e_tag e_attrs e_text e_kids].
  - apply al_text; [exact NI | | | exact E].
    + intros n o I. rewrite !valued_iff, !value_filter, (same_iff _ _ S n I). reflexivity.
    + apply valued_iff. apply valued_iff in V. rewrite value_filter, V. destruct (seqb _ _); reflexivity.
  - apply al_node; [|exact F]. intros n o I. rewrite !valued_iff, !value_filter, (same_iff _ _ S n I). reflexivity.
Qed.
Definition Y (y y' : yrow) : Prop := N (y_row y) (y_row y') /\ Forall2 K (y_sibs y) (y_sibs y').
Lemma select2 ks ks' : Forall2 K ks ks' -> Forall2 Y (select_rows ks) (select_rows ks').
Proof.
  intros F. induction F as [|k k' ks ks' [A C] F IH]; [constructor|]. cbn [select_rows]. rewrite <- (alike_tag _ _ A).
  destruct (seqb (e_tag (fst k)) t_tr) eqn:E; cbn [andb]; [|exact IH]. apply seqb_eq in E.
  assert (NK : N (fst k) (fst k')) by (apply alike_node; [rewrite E; struct | exact A]).
  rewrite <- (td_empty2 _ _ NK), <- (th2 _ _ NK). destruct (_ || _); [|exact IH]. constructor; [split; assumption | exact IH].
Qed.
Definition P2 (p p' : Z * kid) : Prop := fst p = fst p' /\ K (snd p) (snd p').
Definition A2 (p p' : Z * kid * Z) : Prop := fst (fst p) = fst (fst p') /\ K (snd (fst p)) (snd (fst p')) /\ snd p = snd p'.
Lemma decr2 l l' : Forall2 A2 l l' -> Forall2 A2 (alst_count_decr l) (alst_count_decr l').
Proof.
  intros F. unfold alst_count_decr. induction F as [|[[n k] c] [[n' k'] c'] l l' (X & Q & Z) F IH]; [constructor|]. cbn [fst snd] in *. subst n' c'.
  cbn [flat_map]. destruct (1 <? c)%Z; [|exact IH]. constructor; [repeat split; apply Q | exact IH].
Qed.
Lemma insert2 n k k' c l l' : K k k' -> Forall2 A2 l l' -> Forall2 A2 (alst_insert l n k c) (alst_insert l' n k' c).
Proof.
  intros KK F. induction F as [|[[m q] d] [[m' q'] d'] l l' (X & Q & Z) F IH]; cbn [alst_insert].
  - constructor; [repeat split; apply KK | constructor].
  - cbn [fst snd] in *. subst m' d'. destruct (n <? m)%Z.
    + constructor; [repeat split; apply KK|]. constructor; [repeat split; apply Q | exact F].
    + constructor; [repeat split; apply Q | exact IH].
Qed.
Lemma store2 ks ks' : Forall2 K ks ks' -> forall col l l', Forall2 A2 l l' ->
  (exists a a', store_spans ks col l = Some a /\ store_spans ks' col l' = Some a' /\ Forall2 A2 a a') \/ (store_spans ks col l = None /\ store_spans ks' col l' = None).
Proof.
  intros F. induction F as [|k k' ks ks' [A C] F IH]; intros col l l' L; cbn [store_spans]; [left; exists l, l'; repeat split; exact L|].
  rewrite <- (span2 a_rowspan _ _ ltac:(struct) A), <- (span2 a_colspan _ _ ltac:(struct) A).
  destruct (span_attr a_rowspan (fst k)) as [rs|]; [|right; split; reflexivity]. cbv zeta. destruct (span_attr a_colspan (fst k)) as [w|]; [|right; split; reflexivity].
  apply IH. destruct (1 <? rs)%Z; [|exact L]. apply insert2; [|exact L]. split; [apply del2, A | exact C].
Qed.
Lemma flush2 p p' : Forall2 P2 p p' -> forall col,
  (exists ys q c ys' q', flush p col = Some (ys, q, c) /\ flush p' col = Some (ys', q', c) /\ Forall2 K ys ys' /\ Forall2 P2 q q') \/ (flush p col = None /\ flush p' col = None).
Proof.
  intros F. induction F as [|[o k] [o' k'] p p' [E A] F IH]; intros col; cbn [flush].
  - left. exists [], [], col, [], []. repeat split; constructor.
  - cbn [fst snd] in *. subst o'. destruct (o =? col)%Z.
    + rewrite <- (span2 a_colspan _ _ ltac:(struct) (proj1 A)). destruct (span_attr a_colspan (fst k)) as [w|]; [|right; split; reflexivity].
      destruct (IH (col + w)%Z) as [(ys & q & c & ys' & q' & -> & -> & G & H)|[-> ->]]; [|right; split; reflexivity].
      left. exists (k :: ys), q, c, (k' :: ys'), q'. repeat split; [constructor; assumption | exact H].
    + left. exists [], ((o, k) :: p), col, [], ((o, k') :: p'). repeat split; [constructor|]. constructor; [split; [reflexivity | exact A] | exact F].
Qed.
Lemma snd2 p p' : Forall2 P2 p p' -> Forall2 K (map snd p) (map snd p').
Proof. intros F. induction F as [|x y l l' [_ A] F IH]; [constructor|]. cbn [map]. constructor; assumption. Qed.
Lemma merge2 ks ks' : Forall2 K ks ks' -> forall p p' col, Forall2 P2 p p' ->
  (exists a a', merge_cells ks p col = Some a /\ merge_cells ks' p' col = Some a' /\ Forall2 K a a') \/ (merge_cells ks p col = None /\ merge_cells ks' p' col = None).
Proof.
  intros F. induction F as [|k k' ks ks' A F IH]; intros p p' col G; cbn [merge_cells].
  - left. destruct G as [|[o q] [o' q'] p p' [E A] G]; [exists [], []; repeat split; constructor|]. cbn [fst snd] in *. subst o'.
    eexists. eexists. repeat split. apply Forall2_app; [|apply snd2, G]. destruct (o =? col)%Z; constructor; [exact A | constructor].
  - destruct (flush2 p p' G col) as [(ys & q & c & ys' & q' & -> & -> & G1 & G2)|[-> ->]]; [|right; split; reflexivity].
    rewrite <- (span2 a_colspan _ _ ltac:(struct) (proj1 A)). destruct (span_attr a_colspan (fst k)) as [w|]; [|right; split; reflexivity].
    destruct (IH q q' (c + w)%Z G2) as [(a & a' & -> & -> & H)|[-> ->]]; [|right; split; reflexivity].
    left. eexists. eexists. repeat split. apply Forall2_app; [exact G1 | constructor; assumption].
Qed.
Lemma kids_K t e e' : N e e' -> Forall2 K (kids_of t e) (kids_of t e').
Proof. intros H. apply (kids_of2 t) in H. induction H as [|k k' ks ks' [A _] F IH]; [constructor | constructor; assumption]. Qed.
Lemma loop2 rows rows' : Forall2 Y rows rows' -> forall l l', Forall2 A2 l l' ->
  Forall2 Y (fst (row_loop rows l)) (fst (row_loop rows' l')) /\ snd (row_loop rows l) = snd (row_loop rows' l').
Proof.
  intros F. induction F as [|y y' rows rows' HY F IH]; intros l l' L; cbn [row_loop]; [split; [constructor | reflexivity]|].
  rewrite <- (th2 _ _ (proj1 HY)). destruct (contains_th (y_row y)).
  - specialize (IH l l' L). destruct (row_loop rows l), (row_loop rows' l'). cbn [fst snd] in *. split; [constructor; [exact HY | apply IH] | apply IH].
  - set (r := match l with [] => Some y | _ => _ end). set (r' := match l' with [] => Some y' | _ => _ end).
    assert (R : (exists z z', r = Some z /\ r' = Some z' /\ Y z z') \/ (r = None /\ r' = None)).
    { subst r r'. destruct L as [|a a' u u' A L]; [left; exists y, y'; repeat split; apply HY|].
      assert (Q : Forall2 P2 (map (fun '(n, k, _) => (n, k)) (a :: u)) (map (fun '(n, k, _) => (n, k)) (a' :: u'))).
      { assert (L1 : Forall2 A2 (a :: u) (a' :: u')) by (constructor; assumption). clear - L1. induction L1 as [|[[n k] c] [[n' k'] c'] v v' (E & Q & _) F IH]; [constructor|].
        cbn [map]. constructor; [split; assumption | exact IH]. }
      unfold sorted_row_children. destruct (merge2 _ _ (kids_K t_td _ _ (proj1 HY)) _ _ 0%Z Q) as [(ks & ks' & -> & -> & H)|[-> ->]]; [|right; split; reflexivity].
      left. eexists. eexists. repeat split; cbn [y_row y_sibs e_tag e_attrs e_kids]; try apply HY; [exact H | constructor]. }
    destruct R as [(z & z' & -> & -> & HZ)|[-> ->]]; [|split; [constructor | reflexivity]].
    destruct (store2 _ _ (kids_K t_td _ _ (proj1 HZ)) 0%Z l l' L) as [(a & a' & -> & -> & G)|[-> ->]]; [|split; [constructor | reflexivity]].
    specialize (IH _ _ (decr2 _ _ G)). destruct (row_loop rows _), (row_loop rows' _). cbn [fst snd] in *. split; [constructor; [exact HZ | apply IH] | apply IH].
Qed.
Lemma iter2 t t' : N t t' -> Forall2 Y (fst (row_iter t)) (fst (row_iter t')) /\ snd (row_iter t) = snd (row_iter t').
Proof. intros H. apply loop2; [apply select2, H | constructor]. Qed.

(** ** Computations *)

Definition rel {A A'} (R : A -> A' -> Prop) (m : M A) (m' : M A') : Prop :=
  forall f, match m f, m' f with
            | (Ok a, f1, t1), (Ok a', f2, t2) => R a a' /\ f1 = f2 /\ t1 = t2
            | (Exn e, f1, t1), (Exn e', f2, t2) => e = e' /\ f1 = f2 /\ t1 = t2
            | (OutOfFuel, f1, t1), (OutOfFuel, f2, t2) => f1 = f2 /\ t1 = t2
            | _, _ => False
            end.
Lemma r_refl {A} (m : M A) : rel eq m m.
Proof. intros f. destruct (m f) as [[[a|e|] f1] t1]; repeat split. Qed.
Lemma r_ret {A A'} (R : A -> A' -> Prop) a a' : R a a' -> rel R (ret a) (ret a').
Proof. intros H f. repeat split. exact H. Qed.
Lemma r_throw {A A'} (R : A -> A' -> Prop) e : rel R (throw e) (throw e).
Proof. intros f. repeat split. Qed.
Lemma r_bind {A A' B0 B'} (R : A -> A' -> Prop) (Q : B0 -> B' -> Prop) m m' k k' :
  rel R m m' -> (forall a a', R a a' -> rel Q (k a) (k' a')) -> rel Q (bind m k) (bind m' k').
Proof.
  intros H KK f. unfold bind. specialize (H f). destruct (m f) as [[[a|e|] f1] t1], (m' f) as [[[a'|e'|] f1'] t1']; try contradiction.
  - destruct H as (HR & -> & ->). specialize (KK a a' HR f1'). destruct (k a f1') as [[[b|e|] f2] t2], (k' a' f1') as [[[b'|e'|] f2'] t2']; try contradiction.
    + destruct KK as (X & -> & ->). repeat split. exact X.
    + destruct KK as (-> & -> & ->). repeat split.
    + destruct KK as (-> & ->). repeat split.
  - exact H.
  - exact H.
Qed.
Lemma r_bind_eq {A B0 B'} (Q : B0 -> B' -> Prop) (m : M A) k k' : (forall a, rel Q (k a) (k' a)) -> rel Q (bind m k) (bind m k').
Proof. intros H. apply (r_bind eq _ _ _ _ _ (r_refl m)). intros a a' <-. apply H. Qed.
Lemma r_catch m m' h : rel eq m m' -> rel eq (catch m h) (catch m' h).
Proof.
  intros H f. unfold catch. specialize (H f). destruct (m f) as [[[a|e|] f1] t1], (m' f) as [[[a'|e'|] f1'] t1']; try contradiction; try exact H.
  destruct H as (-> & -> & ->). destruct (h e' f1') as [[[b|e|] f2] t2]; repeat split.
Qed.
Lemma r_iter {A} (R : A -> A -> Prop) (f f' : A -> M unit) l l' : Forall2 R l l' -> (forall x x', R x x' -> rel eq (f x) (f' x')) -> rel eq (iterM f l) (iterM f' l').
Proof.
  intros F H. induction F as [|x x' l l' X F IH]; cbn [iterM]; [apply r_refl|]. apply (r_bind eq); [apply H, X | intros _ _ _; exact IH].
Qed.
Lemma r_run {A} (m m' : M A) f : rel eq m m' -> m f = m' f.
Proof.
  intros H. specialize (H f). destruct (m f) as [[[a|e|] f1] t1], (m' f) as [[[a'|e'|] f1'] t1']; try contradiction.
  - destruct H as (-> & -> & ->). reflexivity.
  - destruct H as (-> & -> & ->). reflexivity.
  - destruct H as (-> & ->). reflexivity.
Qed.

(** ** Tables *)

Section Table.
(** The figures in question, closed under nesting and splitting off. *)
Variable G : str -> Prop.
Variables (parse parse' : meta -> elem -> M unit).
Hypothesis HP : forall m t t', G (m_fig m) -> N t t' -> rel eq (parse m t) (parse' m t').
Variable x : xctx.
Hypothesis GX : forall k, G (x_fig x ++ [95%N] ++ k).
Hypothesis GS : forall pre fig, ec_handler (x_cls x) = HSplit pre fig -> G fig.

Lemma sub2 m d d' : G (m_fig m) -> N d d' -> rel eq (extract_data_sub_table parse m d) (extract_data_sub_table parse' m d').
Proof.
  intros GM H. apply (r_iter (B t_table)); [apply children2, H|]. intros t t' BT. apply HP; [exact GM|]. apply (B_node t_table); [struct | exact BT].
Qed.
Lemma label2 r r' : N r r' ->
  (exists c c', label_elem x r = Some c /\ label_elem x r' = Some c' /\ alike c c') \/ (label_elem x r = None /\ label_elem x r' = None).
Proof.
  intros H. unfold label_elem. destruct (child2 t_td (x_label x) r r' H) as [(c & c' & -> & -> & BC)|[-> ->]]; [|right; split; reflexivity].
  destruct (child2 t_p 0 c c' (B_node t_td _ _ ltac:(struct) BC)) as [(p & p' & -> & -> & BP)|[-> ->]]; [|right; split; reflexivity].
  left. exists p, p'. repeat split. apply BP.
Qed.
Lemma fields2 r r' : N r r' ->
  (exists a b c d d', extract_fields x r = Some (a, b, c, d) /\ extract_fields x r' = Some (a, b, c, d') /\ N d d') \/ (extract_fields x r = None /\ extract_fields x r' = None).
Proof.
  intros H. unfold extract_fields, key_elem, content_elem. destruct (child2 t_td (x_key x) r r' H) as [(a & a' & -> & -> & BA)|[-> ->]]; [|right; split; reflexivity].
  destruct (child2 t_td (x_content x) r r' H) as [(b & b' & -> & -> & BB)|[-> ->]]; [|right; split; reflexivity].
  destruct (label2 r r' H) as [(c & c' & -> & -> & AC)|[-> ->]]; [|right; split; reflexivity].
  left. exists (to_text a), (to_text b), (to_text c), b, b'. rewrite (alike_to_text _ _ (proj1 BA)), (alike_to_text _ _ (proj1 BB)), (alike_to_text _ _ AC).
  repeat split; apply (B_node t_td _ _ ltac:(struct) BB).
Qed.
Definition X2 (e e' : extra) : Prop :=
  match e, e' with Some (m, t), Some (m', t') => m = m' /\ G (m_fig m) /\ N t t' | None, None => True | _, _ => False end.
Lemma handler2 h y y' : (forall pre fig, h = HSplit pre fig -> G fig) -> Y y y' -> exists p e e', row_err_handler h y = (p, e) /\ row_err_handler h y' = (p, e') /\ X2 e e'.
Proof.
  intros GH [A C]. unfold row_err_handler. destruct h as [|pre fig|suf].
  - destruct (children2 t_td _ _ A) as [|c c' l l' _ F]; [|destruct F]; repeat eexists.
  - rewrite <- (N_to_text _ _ A). destruct (startswith _ _); [|repeat eexists].
    eexists. eexists. eexists. repeat split; [|exact (GH pre fig eq_refl)|exact C]. unfold extract_figure_title. rewrite (N_to_text _ _ A). reflexivity.
  - rewrite <- (N_to_text _ _ A). destruct (endswith _ _); repeat eexists.
Qed.
Definition F2 (a a' : list sfield * extra) : Prop := fst a = fst a' /\ X2 (snd a) (snd a').
Lemma struct2 rows rows' : Forall2 Y rows rows' -> forall fin dyn fields,
  rel F2 (struct_loop parse x rows fin dyn fields) (struct_loop parse' x rows' fin dyn fields).
Proof.
  intros F. induction F as [|y y' rows rows' HY F IH]; intros fin dyn fields; cbn [struct_loop].
  - destruct fin; [apply r_throw | apply r_ret; repeat split].
  - rewrite <- (th2 _ _ (proj1 HY)). destruct (contains_th (y_row y)).
    + unfold is_list_header. rewrite <- (colspan2 _ _ (proj1 HY)). apply IH.
    + destruct (fields2 _ _ (proj1 HY)) as [(a & b & c & d & d' & -> & -> & ND)|[-> ->]].
      * destruct (_ || _).
        -- destruct (is_special_case a); [apply IH|]. apply r_bind_eq. intros r. apply IH.
        -- apply r_bind_eq. intros r. cbv zeta. apply r_bind_eq. intros l. apply (r_bind eq); [apply sub2; [apply GX | exact ND]|]. intros _ _ _. apply IH.
      * cbv zeta. rewrite <- (N_to_text _ _ (proj1 HY)). destruct (startswith ELLIPSIS _); [apply IH|].
        destruct (startswith (utf8 "note") _); [apply r_ret; repeat split|].
        destruct (handler2 (ec_handler (x_cls x)) y y' GS HY) as (p & e & e' & -> & -> & HX).
        destruct p; [apply r_ret; split; [reflexivity | exact HX] | apply IH | apply r_throw].
Qed.
Lemma struct_call2 k t t' : N t t' -> rel eq (struct_call parse x k t) (struct_call parse' x k t').
Proof.
  intros H. unfold struct_call. destruct (iter2 t t' H) as [A C]. destruct (row_iter t) as [rows fin], (row_iter t') as [rows' fin']. cbn [fst snd] in *. subst fin'.
  apply (r_bind F2); [apply struct2, A|]. intros [fs ex] [fs' ex'] [E HX]. cbn [fst snd] in *. subst fs'. cbv zeta. apply r_bind_eq. intros _. apply r_bind_eq. intros _.
  destruct ex as [[m u]|], ex' as [[m' u']|]; try contradiction; [|apply r_refl]. destruct HX as (<- & GM & HX). apply HP; assumption.
Qed.
Lemma value_label2 r r' key d d' : N r r' -> N d d' -> rel eq (extract_value_label x r key d) (extract_value_label x r' key d').
Proof.
  intros HR HD. unfold extract_value_label. destruct (negb _).
  - assert (E : extract_label_dedicated x r key = extract_label_dedicated x r' key).
    { unfold extract_label_dedicated. destruct (label2 r r' HR) as [(c & c' & -> & -> & AC)|[-> ->]]; [|reflexivity]. rewrite (alike_to_text _ _ AC). reflexivity. }
    rewrite E. apply r_refl.
  - unfold extract_content. destruct (child2 t_p 0 d d' HD) as [(c & c' & -> & -> & BC)|[-> ->]]; [|apply r_refl]. rewrite (alike_to_text _ _ (proj1 BC)). apply r_refl.
Qed.
Lemma value2 ov ov' rows rows' : (forall v, override_of ov (x_fig x) v = override_of ov' (x_fig x) v) -> Forall2 Y rows rows' -> forall fin fields,
  rel eq (value_loop parse ov x rows fin fields) (value_loop parse' ov' x rows' fin fields).
Proof.
  intros OV F. induction F as [|y y' rows rows' HY F IH]; intros fin fields; cbn [value_loop].
  - destruct fin; [apply r_throw | apply r_refl].
  - rewrite <- (th2 _ _ (proj1 HY)). destruct (contains_th (y_row y)); [apply IH|]. cbv zeta. rewrite <- (N_to_text _ _ (proj1 HY)).
    assert (E : rel eq (if startswith ELLIPSIS (lower (to_text (y_row y))) then value_loop parse ov x rows fin (fields ++ [mkVField ELLIPSIS ELLIPSIS None])
      else if startswith (utf8 "notes:") (lower (to_text (y_row y))) then ret fields else value_loop parse ov x rows fin fields)
      (if startswith ELLIPSIS (lower (to_text (y_row y))) then value_loop parse' ov' x rows' fin (fields ++ [mkVField ELLIPSIS ELLIPSIS None])
      else if startswith (utf8 "notes:") (lower (to_text (y_row y))) then ret fields else value_loop parse' ov' x rows' fin fields)).
    { destruct (startswith _ _); [apply IH|]. destruct (startswith _ _); [apply r_refl | apply IH]. }
    unfold key_elem, content_elem in *. destruct (child2 t_td (x_key x) _ _ (proj1 HY)) as [(a & a' & -> & -> & BA)|[-> ->]]; [|exact E].
    destruct (child2 t_td (x_content x) _ _ (proj1 HY)) as [(b & b' & -> & -> & BB)|[-> ->]]; [|exact E].
    rewrite <- (alike_to_text _ _ (proj1 BA)), <- (alike_to_text _ _ (proj1 BB)). pose proof (B_node t_td _ _ ltac:(struct) BB) as NB.
    destruct (seqb _ ELLIPSIS); [apply IH|]. apply (r_bind eq).
    + rewrite <- OV. destruct (override_of _ _ _); [apply r_refl | apply value_label2; [apply HY | exact NB]].
    + intros l _ <-. apply (r_bind eq); [apply sub2; [apply GX | exact NB]|]. intros _ _ _. apply IH.
Qed.
Lemma value_call2 ov ov' t t' : (forall v, override_of ov (x_fig x) v = override_of ov' (x_fig x) v) -> N t t' ->
  rel eq (value_call parse ov x t) (value_call parse' ov' x t').
Proof.
  intros OV H. unfold value_call. destruct (iter2 t t' H) as [A C]. destruct (row_iter t) as [rows fin], (row_iter t') as [rows' fin']. cbn [fst snd] in *. subst fin'.
  apply (r_bind eq); [apply value2; [exact OV | exact A]|]. intros fs _ <-. apply r_refl.
Qed.
End Table.

Lemma headers2 fig t t' : N t t' -> extract_tbl_headers fig t = extract_tbl_headers fig t'.
Proof.
  intros H. unfold extract_tbl_headers, hdr_cells. destruct (child2 t_tr 0 t t' H) as [(r & r' & -> & -> & BR)|[-> ->]]; [|reflexivity].
  destruct (B_node t_tr _ _ ltac:(struct) BR) as (_ & _ & _ & F). induction F as [|k k' ks ks' [A _] F IH]; [reflexivity|].
  cbn [map mapM]. rewrite (alike_to_text _ _ A), IH. reflexivity.
Qed.
(** Two parsers that treat some figures, and those nested in them or split off, in the same way. *)
Definition agree (G : str -> Prop) (P P' : parser) : Prop :=
  p_skip P = p_skip P' /\ (forall f k, G f -> G (f ++ [95%N] ++ k))
  /\ (forall f, G f -> lookup_fig (p_fig_overrides P) f = lookup_fig (p_fig_overrides P') f)
  /\ (forall f c pre g, G f -> lookup_fig (p_fig_overrides P) f = Some c -> ec_handler c = HSplit pre g -> G g)
  /\ forall f v, G f -> override_of (p_label_overrides P) f v = override_of (p_label_overrides P') f v.
Lemma agree_refl P : agree (fun _ => True) P P.
Proof. repeat split. Qed.
Lemma plain_extractor hdrs c mp : select_extractor extractors hdrs = Some (c, mp) -> forall pre g, ec_handler c <> HSplit pre g.
Proof.
  assert (H : forall l, Forall (fun c => forall pre g, ec_handler c <> HSplit pre g) l -> select_extractor l hdrs = Some (c, mp) -> forall pre g, ec_handler c <> HSplit pre g).
  { induction l as [|d l IH]; intros F; cbn [select_extractor]; [discriminate|]. inversion F; subst. destruct (can_apply d hdrs); [intros [= <- _]; assumption | apply IH; assumption]. }
  apply H. repeat (apply Forall_cons; [intros pre g; discriminate|]). apply Forall_nil.
Qed.
Lemma fig2 G P P' n : agree G P P' -> forall m t t', G (m_fig m) -> N t t' -> rel eq (on_parse_fig n P m t) (on_parse_fig n P' m t').
Proof.
  intros (SK & GN & GL & GS & GO). induction n as [|n IH]; intros m t t' GM H; cbn [on_parse_fig]; [intros f; split; reflexivity|].
  apply r_bind_eq. intros _. rewrite <- (headers2 _ _ _ H). apply r_bind_eq. intros hdrs.
  assert (R : forall c mp, (forall pre g, ec_handler c = HSplit pre g -> G g) ->
    rel eq (match run_extractor (on_parse_fig n P) P m t hdrs c mp with Some run => catch run (on_fig_error P m) | None => throw EKeyError end)
           (match run_extractor (on_parse_fig n P') P' m t' hdrs c mp with Some run => catch run (on_fig_error P' m) | None => throw EKeyError end)).
  { intros c mp GC. unfold run_extractor. destruct (col_index _ _ _ _) as [k|]; [|apply r_refl]. destruct (col_index _ _ _ _) as [l|]; [|apply r_refl].
    destruct (col_index _ _ _ _) as [d|]; [|apply r_refl]. replace (on_fig_error P' m) with (on_fig_error P m) by (unfold on_fig_error; rewrite SK; reflexivity). apply r_catch.
    destruct (ec_kind c).
    - apply (struct_call2 G); [exact IH | intros q; apply GN, GM | exact GC | exact H].
    - apply (value_call2 G); [exact IH | intros q; apply GN, GM | intros v; apply GO, GM | exact H]. }
  rewrite <- (GL _ GM). destruct (lookup_fig _ _) as [c|] eqn:L; [destruct (can_apply c hdrs); [apply R; intros pre g; apply (GS _ _ pre g GM L) | apply r_refl]|].
  destruct (select_extractor _ _) as [[c mp]|] eqn:E; [|apply r_refl]. apply R. intros pre g X. destruct (plain_extractor _ _ _ E pre g X).
Qed.
Lemma figure2 G P P' m t t' : agree G P P' -> G (m_fig m) -> N t t' -> rel eq (parse_figure P m t) (parse_figure P' m t').
Proof.
  intros A GM H f. rewrite <- (C37_any_depth P (S (Nat.max (esize t) (esize t'))) m t f), <- (C37_any_depth P' (S (Nat.max (esize t) (esize t'))) m t' f) by lia.
  apply (fig2 G); assumption.
Qed.
Lemma unwrap2 t t' : N t t' -> N (unwrap_table t) (unwrap_table t').
Proof.
  intros H. unfold unwrap_table. destruct (child2 t_tr 0 t t' H) as [(r & r' & -> & -> & BR)|[-> ->]]; [|exact H].
  destruct (child2 t_td 0 r r' (B_node t_tr _ _ ltac:(struct) BR)) as [(c & c' & -> & -> & BC)|[-> ->]]; [|exact H].
  destruct (B_node t_td _ _ ltac:(struct) BC) as (_ & _ & _ & F). destruct F as [|[k s] [k' s'] ks ks' [A _] F]; [exact H|]. cbn [fst] in A.
  rewrite <- (alike_tag _ _ A). destruct (seqb (e_tag k) t_table) eqn:E; [|exact H]. apply seqb_eq in E. apply alike_node; [rewrite E; struct | exact A].
Qed.
Lemma drop2 t t' : N t t' -> N (drop_title_row t) (drop_title_row t').
Proof.
  intros (A & C & D & F). repeat split; try assumption. cbn [drop_title_row e_kids]. clear - F.
  induction F as [|k k' ks ks' KK F IH]; [constructor|]. cbn [remove_first_tr]. rewrite <- (alike_tag _ _ (proj1 KK)). destruct (seqb _ _); [exact F | constructor; assumption].
Qed.
Lemma tables2 G P P' ts ts' : agree G P P' -> Forall2 N ts ts' -> (forall t m tbl, In t ts -> classify t = FFigure m tbl -> G (m_fig m)) ->
  forall n, rel eq (parse_tables P n ts) (parse_tables P' n ts').
Proof.
  intros AG F. induction F as [|t t' ts ts' H F IH]; intros GT n; cbn [parse_tables]; [apply r_refl|].
  assert (IH1 : forall n, rel eq (parse_tables P n ts) (parse_tables P' n ts')) by (apply IH; intros u m tbl I; apply GT; right; exact I). clear IH.
  pose proof (GT t) as GC. unfold classify in *. pose proof (unwrap2 t t' H) as U.
  destruct (child2 t_tr 0 _ _ U) as [(r & r' & E & -> & BR)|[-> ->]]; [|apply r_throw]. rewrite E in *. unfold extract_figure_title in *. rewrite <- (alike_to_text _ _ (proj1 BR)).
  cbv zeta in *. destruct (contains _ _); [|apply IH1]. destruct (figure_id _) as [i|].
  - apply (r_bind eq); [apply (figure2 G); [exact AG | apply (GC _ _ (or_introl eq_refl) eq_refl) | apply drop2, U] | intros _ _ _; apply IH1].
  - apply r_bind_eq. intros _. apply IH1.
Qed.
Lemma figures2 r r' : N r r' -> Forall2 N (figures r) (figures r').
Proof.
  intros H. unfold figures. pose proof (children2 t_body r r' H) as F. induction F as [|b b' bs bs' BB F IH]; [constructor|]. cbn [flat_map]. apply Forall2_app; [|exact IH].
  pose proof (children2 t_table b b' (B_node t_body _ _ ltac:(struct) BB)) as G. clear - G. induction G as [|t t' ts ts' BT G IG]; [constructor|]. constructor; [|exact IG].
  apply (B_node t_table); [struct | exact BT].
Qed.
Lemma doc2 P r r' : N r r' -> parse_doc P r = parse_doc P r'.
Proof. intros H. unfold parse_doc. rewrite (r_run _ _ false (tables2 _ P P _ _ (agree_refl P) (figures2 r r' H) ltac:(repeat split) 0%N)). reflexivity. Qed.
Lemma metas2 a r r' : In a looked_at -> N r r' -> meta_attrs a r = meta_attrs a r'.
Proof.
  intros I H. unfold meta_attrs. pose proof (children2 (utf8 "head") r r' H) as F. induction F as [|h h' hs hs' BH F IH]; [reflexivity|]. cbn [flat_map]. rewrite IH. f_equal.
  pose proof (children2 (utf8 "meta") h h' (B_node (utf8 "head") _ _ ltac:(struct) BH)) as G. clear - I G. induction G as [|m m' ms ms' [A _] G IG]; [reflexivity|].
  cbn [flat_map]. rewrite (alike_attr a _ _ I A), IG. reflexivity.
Qed.
