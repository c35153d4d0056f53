(** Facts about the string operations of PyStr. *)
From Coq Require Import NArith ZArith List Bool Lia ZifyBool ZifyN.
From Verif Require Import PyTables PyStr.
Import ListNotations.
Local Open Scope N_scope.

(** ** Equality *)

Lemma seqb_eq a b : seqb a b = true <-> a = b.
Proof.
  revert b; induction a as [|x a IH]; intros [|y b]; cbn; split; intro H;
    try reflexivity; try discriminate.
  - apply andb_true_iff in H as [H1 H2]. apply N.eqb_eq in H1. apply IH in H2. congruence.
  - injection H as -> ->. rewrite N.eqb_refl. apply IH. reflexivity.
Qed.

Lemma seqb_refl a : seqb a a = true.
Proof. apply seqb_eq; reflexivity. Qed.

Lemma seqb_neq a b : seqb a b = false <-> a <> b.
Proof.
  rewrite <- not_true_iff_false, seqb_eq. reflexivity.
Qed.

Lemma seqb_spec a b : reflect (a = b) (seqb a b).
Proof. destruct (seqb a b) eqn:E; constructor; [apply seqb_eq | apply seqb_neq]; exact E. Qed.

Lemma seqb_sym a b : seqb a b = seqb b a.
Proof. destruct (seqb_spec a b), (seqb_spec b a); congruence. Qed.

Lemma smem_In x l : smem x l = true <-> In x l.
Proof.
  unfold smem. rewrite existsb_exists. split.
  - intros (y & Hy & E). apply seqb_eq in E. congruence.
  - intros H. exists x. split; [exact H | apply seqb_refl].
Qed.

Lemma smem_not_In x l : smem x l = false <-> ~ In x l.
Proof. rewrite <- not_true_iff_false, smem_In. reflexivity. Qed.

Lemma str_eq_dec (a b : str) : {a = b} + {a <> b}.
Proof. decide equality. apply N.eq_dec. Qed.

Lemma has_char_In c s : has_char c s = true <-> In c s.
Proof.
  unfold has_char. rewrite existsb_exists. split.
  - intros (y & Hy & E). apply N.eqb_eq in E. congruence.
  - intros H. exists c. split; [exact H | apply N.eqb_refl].
Qed.

Lemma has_char_not_In c s : has_char c s = false <-> ~ In c s.
Proof. rewrite <- not_true_iff_false, has_char_In. reflexivity. Qed.

(** ** Sweeping a table *)

Definition enum (l : list (N * N)) : list N :=
  flat_map (fun p => map (fun i => fst p + N.of_nat i) (seq 0 (N.to_nat (snd p - fst p + 1)))) l.

Lemma in_ranges_enum l c : in_ranges l c = true -> In c (enum l).
Proof.
  unfold in_ranges, enum. rewrite existsb_exists. intros ([a b] & Hin & H). cbn in H.
  apply in_flat_map. exists (a, b). split; [exact Hin|]. cbn [fst snd].
  apply in_map_iff. exists (N.to_nat (c - a)). split; [lia|]. apply in_seq. lia.
Qed.

Lemma in_ranges_sweep l (P : N -> bool) :
  forallb P (enum l) = true -> forall c, in_ranges l c = true -> P c = true.
Proof.
  intros H c Hc. apply in_ranges_enum in Hc. rewrite forallb_forall in H. auto.
Qed.

Definition below (n : nat) : list N := map N.of_nat (seq 0 n).

Lemma below_sweep n (P : N -> bool) :
  forallb P (below n) = true -> forall c, c < N.of_nat n -> P c = true.
Proof.
  intros H c Hc. rewrite forallb_forall in H. apply H. unfold below.
  apply in_map_iff. exists (N.to_nat c). split; [lia|]. apply in_seq. lia.
Qed.

(** A decidable property of ASCII characters holds for all of them if a sweep says so. *)
Lemma ascii_sweep (P : N -> bool) :
  forallb P (below 128) = true -> forall c, c < 128 -> P c = true.
Proof. intros H c Hc. apply (below_sweep 128 P H c). exact Hc. Qed.

Definition digit_enum : list N :=
  flat_map (fun z => map (fun i => z + N.of_nat i) (seq 0 10)) digit_zeros.

Lemma isdigit_cases c :
  isdigit c = true -> (48 <= c <= 57) \/ (128 <= c /\ In c digit_enum).
Proof.
  unfold isdigit, digit_val. destruct (c <? 128) eqn:E.
  - destruct ((48 <=? c) && (c <=? 57)) eqn:E1; [left; lia | discriminate].
  - destruct (find _ digit_zeros) eqn:F; [|discriminate]. intros _. right.
    apply find_some in F as [Hin H]. split; [lia|].
    apply in_flat_map. exists n. split; [exact Hin|].
    apply in_map_iff. exists (N.to_nat (c - n)). split; [lia|]. apply in_seq. lia.
Qed.

Lemma isspace_cases c :
  isspace c = true -> c = 32 \/ (9 <= c <= 13) \/ (28 <= c <= 31) \/ In c (enum space_ranges).
Proof.
  unfold isspace. destruct (c <? 128) eqn:E.
  - intros H. lia.
  - intros H. right; right; right. apply in_ranges_enum. exact H.
Qed.

(** ** Character classes *)

Lemma isdigit_isalnum c : isdigit c = true -> isalnum c = true.
Proof.
  intros H. destruct (isdigit_cases c H) as [H1 | [H1 H2]].
  - unfold isalnum. replace (c <? 128) with true by lia. lia.
  - assert (S : forallb isalnum digit_enum = true) by (vm_compute; reflexivity).
    rewrite forallb_forall in S. apply S; exact H2.
Qed.

Lemma isspace_not_alnum c : isspace c = true -> isalnum c = false.
Proof.
  intros H. destruct (isspace_cases c H) as [H1 | [H1 | [H1 | H1]]];
    try (unfold isalnum; replace (c <? 128) with true by lia; lia).
  assert (S : forallb (fun c => negb (isalnum c)) (enum space_ranges) = true)
    by (vm_compute; reflexivity).
  rewrite forallb_forall in S. specialize (S c H1). apply negb_true_iff in S. exact S.
Qed.

Lemma isspace_not_word c : isspace c = true -> isword c = false.
Proof.
  intros H. unfold isword. rewrite (isspace_not_alnum c H). cbn.
  apply N.eqb_neq. intros ->. vm_compute in H. discriminate.
Qed.

Lemma isword_not_space c : isword c = true -> isspace c = false.
Proof.
  intros H. destruct (isspace c) eqn:E; [|reflexivity].
  rewrite (isspace_not_word c E) in H. discriminate.
Qed.

Lemma isdigit_isword c : isdigit c = true -> isword c = true.
Proof. intros H. unfold isword. rewrite (isdigit_isalnum c H). reflexivity. Qed.

Lemma isdigit_not_space c : isdigit c = true -> isspace c = false.
Proof. intros H. apply isword_not_space, isdigit_isword, H. Qed.

Lemma isspace_not_digit c : isspace c = true -> isdigit c = false.
Proof.
  intros H. destruct (isdigit c) eqn:E; [|reflexivity].
  rewrite (isdigit_not_space c E) in H. discriminate.
Qed.

(** The value of a digit character is below 10. *)
Lemma digit_val_lt c d : digit_val c = Some d -> d < 10.
Proof.
  unfold digit_val. destruct (c <? 128).
  - destruct ((48 <=? c) && (c <=? 57)) eqn:E; [|discriminate]. intros [= <-]. lia.
  - destruct (find _ digit_zeros) eqn:F; [|discriminate]. intros [= <-].
    apply find_some in F as [_ H]. lia.
Qed.

(** ** Case mapping *)

Lemma assocN_In c t l : assocN c t = Some l -> In (c, l) t.
Proof.
  unfold assocN. destruct (find _ t) as [[c' l']|] eqn:F; [|discriminate].
  intros [= <-]. apply find_some in F as [H1 H2]. cbn in H2.
  apply N.eqb_eq in H2. subst. exact H1.
Qed.

(** Every result of upper/lower on a non-ASCII character is the character itself or comes
    from the table. *)
Lemma upper_char_cases c :
  (c < 128 /\ upper_char c = [if (97 <=? c) && (c <=? 122) then c - 32 else c])
  \/ (128 <= c /\ upper_char c = [c])
  \/ (128 <= c /\ In (c, upper_char c) upper_table).
Proof.
  unfold upper_char. destruct (c <? 128) eqn:E.
  - left. split; [lia | reflexivity].
  - right. destruct (assocN c upper_table) eqn:A.
    + right. split; [lia|]. apply assocN_In. exact A.
    + left. split; [lia | reflexivity].
Qed.

Lemma lower_char_cases c :
  (c < 128 /\ lower_char c = [if (65 <=? c) && (c <=? 90) then c + 32 else c])
  \/ (128 <= c /\ lower_char c = [c])
  \/ (128 <= c /\ In (c, lower_char c) lower_table).
Proof.
  unfold lower_char. destruct (c <? 128) eqn:E.
  - left. split; [lia | reflexivity].
  - right. destruct (assocN c lower_table) eqn:A.
    + right. split; [lia|]. apply assocN_In. exact A.
    + left. split; [lia | reflexivity].
Qed.

Lemma upper_table_sweep (P : N -> list N -> bool) :
  forallb (fun p => P (fst p) (snd p)) upper_table = true ->
  forall c l, In (c, l) upper_table -> P c l = true.
Proof. intros H c l Hin. rewrite forallb_forall in H. apply (H (c, l) Hin). Qed.

Lemma lower_table_sweep (P : N -> list N -> bool) :
  forallb (fun p => P (fst p) (snd p)) lower_table = true ->
  forall c l, In (c, l) lower_table -> P c l = true.
Proof. intros H c l Hin. rewrite forallb_forall in H. apply (H (c, l) Hin). Qed.

(** Non-ASCII characters never map to ASCII characters other than letters. *)
Definition ascii_letter (c : N) : bool :=
  ((65 <=? c) && (c <=? 90)) || ((97 <=? c) && (c <=? 122)).

Lemma upper_char_ascii c d :
  In d (upper_char c) -> d < 128 -> ascii_letter d = false -> c = d.
Proof.
  intros H Hd Hl. destruct (upper_char_cases c) as [[H1 H2] | [[H1 H2] | [H1 H2]]].
  - rewrite H2 in H. destruct H as [H | []].
    destruct ((97 <=? c) && (c <=? 122)) eqn:E; unfold ascii_letter in Hl; lia.
  - rewrite H2 in H. destruct H as [H | []]. lia.
  - assert (S : forallb (fun p => forallb (fun d => (128 <=? d) || ascii_letter d) (snd p))
                        upper_table = true) by (vm_compute; reflexivity).
    rewrite forallb_forall in S. specialize (S _ H2). cbn in S.
    rewrite forallb_forall in S. specialize (S _ H). lia.
Qed.

Lemma lower_char_ascii c d :
  In d (lower_char c) -> d < 128 -> ascii_letter d = false -> c = d.
Proof.
  intros H Hd Hl. destruct (lower_char_cases c) as [[H1 H2] | [[H1 H2] | [H1 H2]]].
  - rewrite H2 in H. destruct H as [H | []].
    destruct ((65 <=? c) && (c <=? 90)) eqn:E; unfold ascii_letter in Hl; lia.
  - rewrite H2 in H. destruct H as [H | []]. lia.
  - assert (S : forallb (fun p => forallb (fun d => (128 <=? d) || ascii_letter d) (snd p))
                        lower_table = true) by (vm_compute; reflexivity).
    rewrite forallb_forall in S. specialize (S _ H2). cbn in S.
    rewrite forallb_forall in S. specialize (S _ H). lia.
Qed.

Lemma upper_In_ascii d s :
  d < 128 -> ascii_letter d = false -> In d (upper s) -> In d s.
Proof.
  intros Hd Hl H. apply in_flat_map in H as (c & Hc & H).
  rewrite <- (upper_char_ascii c d H Hd Hl). exact Hc.
Qed.

Lemma lower_In_ascii d s :
  d < 128 -> ascii_letter d = false -> In d (lower s) -> In d s.
Proof.
  intros Hd Hl H. apply in_flat_map in H as (c & Hc & H).
  rewrite <- (lower_char_ascii c d H Hd Hl). exact Hc.
Qed.

Lemma upper_app a b : upper (a ++ b) = upper a ++ upper b.
Proof. apply flat_map_app. Qed.
Lemma lower_app a b : lower (a ++ b) = lower a ++ lower b.
Proof. apply flat_map_app. Qed.

Lemma flat_map_id_on {A} (f : A -> list A) l :
  (forall x, In x l -> f x = [x]) -> flat_map f l = l.
Proof.
  induction l as [|x l IH]; intros H; cbn; [reflexivity|].
  rewrite (H x (or_introl eq_refl)). cbn. f_equal. apply IH. intros y Hy. apply H. right; exact Hy.
Qed.

Lemma upper_char_idem c d : In d (upper_char c) -> upper_char d = [d].
Proof.
  intros H. destruct (upper_char_cases c) as [[H1 H2] | [[H1 H2] | [H1 H2]]].
  - rewrite H2 in H. destruct H as [H | []].
    unfold upper_char. destruct ((97 <=? c) && (c <=? 122)) eqn:E.
    + replace (d <? 128) with true by lia. replace ((97 <=? d) && (d <=? 122)) with false by lia.
      reflexivity.
    + replace (d <? 128) with true by lia. subst d. rewrite E. reflexivity.
  - rewrite H2 in H. destruct H as [<- | []]. exact H2.
  - assert (S : forallb (fun p => forallb (fun d => seqb (upper_char d) [d]) (snd p))
                        upper_table = true) by (vm_compute; reflexivity).
    rewrite forallb_forall in S. specialize (S _ H2). cbn in S.
    rewrite forallb_forall in S. specialize (S _ H). apply seqb_eq. exact S.
Qed.

Lemma lower_char_idem c d : In d (lower_char c) -> lower_char d = [d].
Proof.
  intros H. destruct (lower_char_cases c) as [[H1 H2] | [[H1 H2] | [H1 H2]]].
  - rewrite H2 in H. destruct H as [H | []].
    unfold lower_char. destruct ((65 <=? c) && (c <=? 90)) eqn:E.
    + replace (d <? 128) with true by lia. replace ((65 <=? d) && (d <=? 90)) with false by lia.
      reflexivity.
    + replace (d <? 128) with true by lia. subst d. rewrite E. reflexivity.
  - rewrite H2 in H. destruct H as [<- | []]. exact H2.
  - assert (S : forallb (fun p => forallb (fun d => seqb (lower_char d) [d]) (snd p))
                        lower_table = true) by (vm_compute; reflexivity).
    rewrite forallb_forall in S. specialize (S _ H2). cbn in S.
    rewrite forallb_forall in S. specialize (S _ H). apply seqb_eq. exact S.
Qed.

Lemma upper_idem s : upper (upper s) = upper s.
Proof.
  unfold upper at 1. apply flat_map_id_on. intros d H.
  apply in_flat_map in H as (c & _ & H). exact (upper_char_idem c d H).
Qed.

Lemma lower_idem s : lower (lower s) = lower s.
Proof.
  unfold lower at 1. apply flat_map_id_on. intros d H.
  apply in_flat_map in H as (c & _ & H). exact (lower_char_idem c d H).
Qed.

Lemma upper_char_nonempty c : upper_char c <> [].
Proof.
  destruct (upper_char_cases c) as [[_ H] | [[_ H] | [_ H]]]; try (rewrite H; discriminate).
  assert (S : forallb (fun p => negb (seqb (snd p) [])) upper_table = true)
    by (vm_compute; reflexivity).
  rewrite forallb_forall in S. specialize (S _ H). cbn in S. intros E. rewrite E in S. discriminate.
Qed.

Lemma lower_char_nonempty c : lower_char c <> [].
Proof.
  destruct (lower_char_cases c) as [[_ H] | [[_ H] | [_ H]]]; try (rewrite H; discriminate).
  assert (S : forallb (fun p => negb (seqb (snd p) [])) lower_table = true)
    by (vm_compute; reflexivity).
  rewrite forallb_forall in S. specialize (S _ H). cbn in S. intros E. rewrite E in S. discriminate.
Qed.

(** Lower-casing keeps word characters word characters, with one exception in Unicode:
    U+0130 becomes two characters, the second of which is not one. *)
Lemma lower_char_word c d :
  isword c = true -> c <> 304 -> In d (lower_char c) -> isword d = true.
Proof.
  intros Hw Hc H. destruct (lower_char_cases c) as [[H1 H2] | [[H1 H2] | [H1 H2]]].
  - rewrite H2 in H. destruct H as [H | []].
    destruct ((65 <=? c) && (c <=? 90)) eqn:E.
    + unfold isword, isalnum. replace (d <? 128) with true by lia. lia.
    + subst d. exact Hw.
  - rewrite H2 in H. destruct H as [<- | []]. exact Hw.
  - assert (S : forallb (fun p => (fst p =? 304) || negb (isword (fst p))
                                  || forallb isword (snd p)) lower_table = true)
      by (vm_compute; reflexivity).
    rewrite forallb_forall in S. specialize (S _ H2). cbn [fst snd] in S.
    rewrite Hw in S. destruct (c =? 304) eqn:E; [apply N.eqb_eq in E; congruence|].
    cbn in S. rewrite forallb_forall in S. auto.
Qed.

(** Case mapping never produces or consumes white space. *)
Lemma upper_char_space c d : In d (upper_char c) -> isspace d = true -> c = d.
Proof.
  intros H Hs. destruct (upper_char_cases c) as [[H1 H2] | [[H1 H2] | [H1 H2]]].
  - rewrite H2 in H. destruct H as [H | []].
    destruct ((97 <=? c) && (c <=? 122)) eqn:E; [|exact H].
    exfalso. unfold isspace in Hs. replace (d <? 128) with true in Hs by lia. lia.
  - rewrite H2 in H. destruct H as [H | []]. exact H.
  - assert (S : forallb (fun p => forallb (fun d => negb (isspace d)) (snd p)) upper_table = true)
      by (vm_compute; reflexivity).
    rewrite forallb_forall in S. specialize (S _ H2). cbn [snd] in S.
    rewrite forallb_forall in S. specialize (S _ H). rewrite Hs in S. discriminate.
Qed.

Lemma lower_char_space c d : In d (lower_char c) -> isspace d = true -> c = d.
Proof.
  intros H Hs. destruct (lower_char_cases c) as [[H1 H2] | [[H1 H2] | [H1 H2]]].
  - rewrite H2 in H. destruct H as [H | []].
    destruct ((65 <=? c) && (c <=? 90)) eqn:E; [|exact H].
    exfalso. unfold isspace in Hs. replace (d <? 128) with true in Hs by lia. lia.
  - rewrite H2 in H. destruct H as [H | []]. exact H.
  - assert (S : forallb (fun p => forallb (fun d => negb (isspace d)) (snd p)) lower_table = true)
      by (vm_compute; reflexivity).
    rewrite forallb_forall in S. specialize (S _ H2). cbn [snd] in S.
    rewrite forallb_forall in S. specialize (S _ H). rewrite Hs in S. discriminate.
Qed.

(** ** take_while / drop_while *)

Lemma take_drop p s : take_while p s ++ drop_while p s = s.
Proof.
  induction s as [|c r IH]; cbn; [reflexivity|]. destruct (p c); cbn; [|reflexivity].
  f_equal. exact IH.
Qed.

Lemma take_while_all p s : forallb p (take_while p s) = true.
Proof.
  induction s as [|c r IH]; cbn; [reflexivity|]. destruct (p c) eqn:E; cbn; [|reflexivity].
  rewrite E. exact IH.
Qed.

Lemma drop_while_head p s c r : drop_while p s = c :: r -> p c = false.
Proof.
  induction s as [|x s IH]; cbn; [discriminate|]. destruct (p x) eqn:E; [exact IH|].
  intros [= <- <-]. exact E.
Qed.

Lemma take_while_app p a b :
  forallb p a = true -> take_while p (a ++ b) = a ++ take_while p b.
Proof.
  induction a as [|x a IH]; cbn; intros H; [reflexivity|].
  apply andb_true_iff in H as [H1 H2]. rewrite H1. f_equal. auto.
Qed.

Lemma drop_while_app p a b :
  forallb p a = true -> drop_while p (a ++ b) = drop_while p b.
Proof.
  induction a as [|x a IH]; cbn; intros H; [reflexivity|].
  apply andb_true_iff in H as [H1 H2]. rewrite H1. auto.
Qed.

(** A position where [p] stops. *)
Definition stops (p : N -> bool) (s : str) : Prop :=
  match s with [] => True | c :: _ => p c = false end.

Lemma take_while_stop p s : stops p s -> take_while p s = [].
Proof. destruct s; cbn; [reflexivity|]. intros ->. reflexivity. Qed.
Lemma drop_while_stop p s : stops p s -> drop_while p s = s.
Proof. destruct s; cbn; [reflexivity|]. intros ->. reflexivity. Qed.
Lemma drop_while_stops p s : stops p (drop_while p s).
Proof.
  induction s as [|c s IH]; cbn; [exact I|]. destruct (p c) eqn:E; [exact IH|]. exact E.
Qed.

(** Uniqueness: a run of [p] followed by a stop is the maximal run. *)
Lemma take_while_unique p a b : forallb p a = true -> stops p b -> take_while p (a ++ b) = a.
Proof.
  intros Ha Hb. rewrite take_while_app by exact Ha. rewrite take_while_stop by exact Hb.
  apply app_nil_r.
Qed.
Lemma drop_while_unique p a b : forallb p a = true -> stops p b -> drop_while p (a ++ b) = b.
Proof.
  intros Ha Hb. rewrite drop_while_app by exact Ha. apply drop_while_stop; exact Hb.
Qed.

Lemma drop_while_skipn p s : drop_while p s = skipn (length (take_while p s)) s.
Proof.
  induction s as [|c s IH]; cbn; [reflexivity|]. destruct (p c); cbn; [exact IH | reflexivity].
Qed.

Lemma drop_while_suffix p s : exists a, s = a ++ drop_while p s.
Proof. exists (take_while p s). symmetry. apply take_drop. Qed.

Lemma drop_while_length p s : (length (drop_while p s) <= length s)%nat.
Proof.
  rewrite <- (take_drop p s) at 2. rewrite app_length. lia.
Qed.

Lemma drop_while_In p s c : In c (drop_while p s) -> In c s.
Proof.
  intros H. rewrite <- (take_drop p s). apply in_or_app. right. exact H.
Qed.

(** ** strip *)

Lemma rstrip_prefix p s : exists b, s = rstrip_by p s ++ b /\ forallb p b = true.
Proof.
  unfold rstrip_by. exists (rev (take_while p (rev s))). split.
  - rewrite <- rev_app_distr. rewrite take_drop. symmetry. apply rev_involutive.
  - rewrite forallb_forall. intros x Hx. apply in_rev in Hx.
    pose proof (take_while_all p (rev s)) as A. rewrite forallb_forall in A. auto.
Qed.

Lemma rstrip_stops p s c r : rev (rstrip_by p s) = c :: r -> p c = false.
Proof.
  unfold rstrip_by. rewrite rev_involutive. apply drop_while_head.
Qed.

Lemma rstrip_In p s c : In c (rstrip_by p s) -> In c s.
Proof.
  unfold rstrip_by. intros H. apply in_rev in H. apply drop_while_In in H.
  apply in_rev. exact H.
Qed.

Lemma strip_In p s c : In c (strip_by p s) -> In c s.
Proof. intros H. apply rstrip_In in H. apply drop_while_In in H. exact H. Qed.

Lemma rstrip_length p s : (length (rstrip_by p s) <= length s)%nat.
Proof.
  unfold rstrip_by. rewrite rev_length, <- (rev_length s). apply drop_while_length.
Qed.

(** Appending something that must be kept. *)
Lemma rstrip_app_keep p a b :
  rstrip_by p b <> [] -> rstrip_by p (a ++ b) = a ++ rstrip_by p b.
Proof.
  unfold rstrip_by. intros H. rewrite rev_app_distr.
  assert (E : exists x y, drop_while p (rev b) = x :: y).
  { destruct (drop_while p (rev b)) as [|x y] eqn:E; [contradiction H; reflexivity|]. eauto. }
  destruct E as (x & y & E).
  assert (D : drop_while p (rev b ++ rev a) = drop_while p (rev b) ++ rev a).
  { clear H. revert E. induction (rev b) as [|c t IH]; cbn; [discriminate|].
    destruct (p c) eqn:Pc; [exact IH | reflexivity]. }
  rewrite D, rev_app_distr, rev_involutive. reflexivity.
Qed.

(** A string whose first and last characters are not stripped is unchanged. *)
Lemma lstrip_stop p s : stops p s -> lstrip_by p s = s.
Proof. apply drop_while_stop. Qed.
Lemma rstrip_stop p s : stops p (rev s) -> rstrip_by p s = s.
Proof. intros H. unfold rstrip_by. rewrite drop_while_stop by exact H. apply rev_involutive. Qed.

Lemma rstrip_idem p s : rstrip_by p (rstrip_by p s) = rstrip_by p s.
Proof.
  apply rstrip_stop. unfold rstrip_by. rewrite rev_involutive. apply drop_while_stops.
Qed.
Lemma lstrip_idem p s : lstrip_by p (lstrip_by p s) = lstrip_by p s.
Proof. apply lstrip_stop. apply drop_while_stops. Qed.

Lemma stops_rstrip p s : stops p s -> stops p (rstrip_by p s).
Proof.
  destruct (rstrip_prefix p s) as (b & E & _). destruct (rstrip_by p s) as [|c r]; [intros _; exact I|].
  rewrite E. cbn. auto.
Qed.

Lemma strip_ends p s : stops p (strip_by p s) /\ stops p (rev (strip_by p s)).
Proof.
  unfold strip_by. split.
  - apply stops_rstrip. apply drop_while_stops.
  - unfold rstrip_by. rewrite rev_involutive. apply drop_while_stops.
Qed.

Lemma strip_of_stripped p s : stops p s -> stops p (rev s) -> strip_by p s = s.
Proof.
  intros H1 H2. unfold strip_by. rewrite (lstrip_stop p s H1). apply rstrip_stop. exact H2.
Qed.

Lemma strip_idem p s : strip_by p (strip_by p s) = strip_by p s.
Proof. destruct (strip_ends p s). apply strip_of_stripped; assumption. Qed.

(** A stripped string is a contiguous piece of the original. *)
Lemma strip_sub p s : exists a b, s = a ++ strip_by p s ++ b /\ forallb p a = true /\ forallb p b = true.
Proof.
  unfold strip_by. destruct (rstrip_prefix p (lstrip_by p s)) as (b & E & Hb).
  exists (take_while p s), b. split; [|split; [apply take_while_all | exact Hb]].
  rewrite <- E. symmetry. apply take_drop.
Qed.

(** ** split *)

Lemma split1_none c s : snd (split1 c s) = None <-> ~ In c s.
Proof.
  induction s as [|x s IH]; cbn.
  - split; auto.
  - destruct (x =? c) eqn:E.
    + apply N.eqb_eq in E. subst. cbn. split; [discriminate | intros H; exfalso; apply H; left; reflexivity].
    + apply N.eqb_neq in E. destruct (split1 c s) as [h t] eqn:S. cbn in *.
      rewrite IH. split; [intros H [H1 | H1]; auto | intros H H1; apply H; right; exact H1].
Qed.

Lemma split1_fst_not_In c s : ~ In c (fst (split1 c s)).
Proof.
  induction s as [|x s IH]; cbn; [auto|]. destruct (x =? c) eqn:E; [cbn; auto|].
  apply N.eqb_neq in E. destruct (split1 c s) as [h t]. cbn in *. intros [H | H]; auto.
Qed.

Lemma split1_eq c s :
  s = match split1 c s with (h, None) => h | (h, Some t) => h ++ c :: t end.
Proof.
  induction s as [|x s IH]; cbn; [reflexivity|]. destruct (x =? c) eqn:E.
  - apply N.eqb_eq in E. subst. reflexivity.
  - destruct (split1 c s) as [h [t|]]; cbn; f_equal; exact IH.
Qed.

Lemma split1_app c h t : ~ In c h -> split1 c (h ++ c :: t) = (h, Some t).
Proof.
  induction h as [|x h IH]; cbn; intros H.
  - rewrite N.eqb_refl. reflexivity.
  - destruct (x =? c) eqn:E; [apply N.eqb_eq in E; exfalso; apply H; left; exact E|].
    rewrite IH by tauto. reflexivity.
Qed.

Lemma split1_notin c s : ~ In c s -> split1 c s = (s, None).
Proof.
  induction s as [|x s IH]; cbn; intros H; [reflexivity|].
  destruct (x =? c) eqn:E; [apply N.eqb_eq in E; exfalso; apply H; left; exact E|].
  rewrite IH by tauto. reflexivity.
Qed.

(** ** prefixes *)

Lemma startswith_app p s : startswith p s = true <-> exists t, s = p ++ t.
Proof.
  revert s; induction p as [|x p IH]; intros s; cbn.
  - split; eauto.
  - destruct s as [|y s]; [split; [discriminate | intros (t & H); discriminate]|].
    rewrite andb_true_iff, N.eqb_eq, IH. split.
    + intros [-> (t & ->)]. exists t. reflexivity.
    + intros (t & H). injection H as -> ->. eauto.
Qed.

Lemma contains_app needle s :
  contains needle s = true <-> exists a b, s = a ++ needle ++ b.
Proof.
  split.
  - induction s as [|c s IH]; cbn; intros H.
    + rewrite orb_false_r in H. apply startswith_app in H as (t & H). exists [], t. exact H.
    + apply orb_true_iff in H as [H | H].
      * apply startswith_app in H as (t & H). exists [], t. exact H.
      * destruct (IH H) as (a & b & ->). exists (c :: a), b. reflexivity.
  - intros (a & b & ->). induction a as [|x a IH]; cbn [app].
    + destruct (needle ++ b) eqn:E.
      * cbn. rewrite orb_false_r. apply startswith_app. exists b. congruence.
      * cbn. apply orb_true_iff. left. rewrite <- E. apply startswith_app. eauto.
    + cbn. rewrite IH. apply orb_true_r.
Qed.

(** ** integers *)

(** Plain digit strings within the length limit are read as their decimal value. *)
Lemma int_body_digits ds b :
  forallb isdigit ds = true -> ds <> [] \/ b = true -> int_body ds b = Some ds.
Proof.
  revert b; induction ds as [|c ds IH]; intros b H Hn; cbn.
  - destruct Hn as [Hn | ->]; [congruence | reflexivity].
  - cbn in H. apply andb_true_iff in H as [H1 H2]. rewrite H1.
    rewrite (IH true H2) by auto. reflexivity.
Qed.

Lemma isdigit_not c d : isdigit c = true -> isdigit d = false -> c <> d.
Proof. intros H1 H2 ->. congruence. Qed.

Lemma strip_digits ds : forallb isdigit ds = true -> strip ds = ds.
Proof.
  intros H. rewrite forallb_forall in H. apply strip_of_stripped.
  - destruct ds as [|c r]; [exact I|]. apply isdigit_not_space, H. left; reflexivity.
  - destruct (rev ds) as [|c r] eqn:E; [exact I|]. apply isdigit_not_space, H.
    apply in_rev. rewrite E. left; reflexivity.
Qed.

Lemma py_int_digits ds :
  forallb isdigit ds = true -> ds <> [] ->
  py_int ds = if N.of_nat (length ds) <=? int_max_digits
              then Some (Z.of_N (digits_val ds)) else None.
Proof.
  intros H Hn. unfold py_int. rewrite strip_digits by exact H.
  destruct ds as [|c r]; [congruence|].
  assert (Hc : isdigit c = true) by (cbn in H; apply andb_true_iff in H; tauto).
  assert (c <> 43) by (apply (isdigit_not c 43 Hc); reflexivity).
  assert (c <> 45) by (apply (isdigit_not c 45 Hc); reflexivity).
  rewrite (proj2 (N.eqb_neq c 43) H0), (proj2 (N.eqb_neq c 45) H1).
  rewrite int_body_digits; [reflexivity | exact H | left; discriminate].
Qed.
