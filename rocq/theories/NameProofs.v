(** Proofs about normalised labels, moved numbers and briefs: the model computes exactly what
    SpecNames says. *)
From Coq Require Import NArith List Bool Lia.
From Verif Require Import PyStr PyStrFacts RegexFacts Helpers Extract SpecText SpecLabel SpecHeader SpecNames RangeProofs LabelProofs HeaderProofs.
Import ListNotations.
Local Open Scope list_scope.
Local Open Scope N_scope.

(** ** Characters at the ends *)
Lemma all_repeat c i : forallb (N.eqb c) (repeat c i) = true.
Proof. induction i; [reflexivity|]. cbn. rewrite N.eqb_refl. exact IHi. Qed.
Lemma repeat_all c a : forallb (N.eqb c) a = true -> a = repeat c (List.length a).
Proof.
  induction a as [|d a IH]; [reflexivity|]. cbn. intros H. apply andb_true_iff in H as [E H]. apply N.eqb_eq in E as <-. f_equal. auto.
Qed.
Lemma stops_char c s : stops (N.eqb c) s <-> ~ begins (is_char c) s.
Proof.
  rewrite <- stops_not_begins. unfold is_char. destruct s as [|d s]; [reflexivity|]. cbn. rewrite N.eqb_sym. reflexivity.
Qed.

Lemma strip_between p a t b : forallb p a = true -> forallb p b = true -> stops p t -> stops p (rev t) -> strip_by p (a ++ t ++ b) = t.
Proof.
  intros A B T1 T2. unfold strip_by, lstrip_by. rewrite drop_while_app by exact A. destruct t as [|c t].
  - cbn [app]. rewrite <- (app_nil_r b) at 1. rewrite drop_while_app by exact B. reflexivity.
  - rewrite drop_while_stop by exact T1. unfold rstrip_by. rewrite rev_app_distr.
    assert (B' : forallb p (rev b) = true) by (rewrite forallb_forall in *; intros y Y; apply B, in_rev; exact Y).
    rewrite drop_while_app by exact B'. rewrite drop_while_stop by exact T2. apply rev_involutive.
Qed.

Lemma peeled_iff c s t : peeled c s t <-> strip_by (N.eqb c) s = t.
Proof.
  split.
  - intros (H1 & H2 & i & j & ->). apply strip_between; try apply all_repeat; apply stops_char; assumption.
  - intros <-. destruct (strip_ends (N.eqb c) s) as [S1 S2]. split; [apply stops_char; exact S1|]. split; [apply stops_char; exact S2|].
    destruct (strip_sub (N.eqb c) s) as (a & b & E & A & B). exists (List.length a), (List.length b).
    rewrite <- (repeat_all _ _ A), <- (repeat_all _ _ B). exact E.
Qed.

(** ** Normalised labels *)
Lemma joined_eq s : joined s = replace_char 45 [95] (replace_char 47 [] (replace_char 32 [95] s)).
Proof.
  induction s as [|c s IH]; [reflexivity|]. unfold joined, replace_char in *. cbn [flat_map]. rewrite IH.
  destruct (N.eqb_spec c 32) as [->|N1]; [reflexivity|]. cbn [orb flat_map app]. destruct (N.eqb_spec c 47) as [->|N2]; [reflexivity|].
  destruct (N.eqb_spec c 45) as [->|N3]; [reflexivity|]. cbn [flat_map app]. destruct (N.eqb_spec c 45); [congruence|]. reflexivity.
Qed.

Lemma unpaired_pair n : forall s, (List.length s <= n)%nat -> unpaired s (replace_pair 95 [95] s).
Proof.
  induction n as [|n IH]; intros s L.
  - destruct s; [constructor|cbn in L; lia].
  - destruct s as [|x [|y r]]; [constructor | cbn; constructor; [right; intros (? & ? & ? & _); discriminate | constructor]|].
    rewrite replace_pair_two. cbn in L. destruct (N.eqb_spec x 95) as [->|NX]; [destruct (N.eqb_spec y 95) as [->|NY]|]; cbn [andb app].
    + constructor. apply IH. lia.
    + constructor; [|apply IH; cbn; lia]. right. intros (c & t & E & H). injection E as -> ->. apply N.eqb_eq in H. congruence.
    + constructor; [left; exact NX | apply IH; cbn; lia].
Qed.
Lemma unpaired_iff s t : unpaired s t <-> replace_pair 95 [95] s = t.
Proof.
  split; [|intros <-; apply (unpaired_pair (List.length s)); lia]. induction 1 as [|s t _ IH|c s t O _ IH].
  - reflexivity.
  - rewrite replace_pair_two. cbn [N.eqb Pos.eqb andb app]. rewrite IH. reflexivity.
  - destruct s as [|y r]; [cbn in *; congruence|]. rewrite replace_pair_two, IH.
    destruct (N.eqb_spec c 95) as [->|NX]; [destruct (N.eqb_spec y 95) as [->|NY]|]; try reflexivity.
    exfalso. destruct O as [O|O]; [congruence|]. apply O. exists 95, r. split; reflexivity.
Qed.

Lemma normal_iff s l : normal s l <-> normalize_label s = l.
Proof.
  rewrite normalize_unfold, <- joined_eq. split.
  - intros (t & u & T & U & ->). apply trims_unique in T as ->. apply unpaired_iff in U as <-. reflexivity.
  - intros <-. exists (strip s), (replace_pair 95 [95] (joined (strip s))). split; [apply strip_trims|]. split; [apply unpaired_iff|]; reflexivity.
Qed.

(** ** Moved numbers *)
Lemma line_split s : exists line after, s = line ++ after /\ ~ In 10 line /\ (after = [] \/ begins (is_char 10) after).
Proof.
  exists (take_while not_nl s), (drop_while not_nl s). split; [symmetry; apply take_drop|]. split.
  - intros I. pose proof (take_while_all not_nl s) as A. rewrite forallb_forall in A. specialize (A _ I). discriminate.
  - pose proof (drop_while_stops not_nl s) as D. destruct (drop_while not_nl s) as [|c r]; [left; reflexivity|]. right. exists c, r. split; [reflexivity|].
    cbn in D. unfold not_nl in D. apply negb_false_iff in D. exact D.
Qed.
Lemma moved_iff s t : moved s t <-> rearrange_num_label s = t.
Proof.
  split.
  - intros [s' H | d line after u v D R L A U V].
    + apply rearrange_none. exact H.
    + apply peeled_iff in U as <-. apply peeled_iff in V as <-. eapply rearrange_spec; eauto.
  - intros <-. destruct (take_while isdigit s) as [|c d] eqn:T.
    + assert (B : ~ begins isdigit s).
      { intros (c & r & -> & C). cbn in T. rewrite C in T. discriminate. }
      rewrite (rearrange_none _ B). constructor. exact B.
    + pose proof (take_drop isdigit s) as E. rewrite T in E. destruct (line_split (drop_while isdigit s)) as (line & after & F & L & A).
      assert (D : numeral (c :: d)) by (split; [discriminate|]; rewrite <- T; apply all_forallb, take_while_all).
      assert (R : ~ begins isdigit (line ++ after)) by (rewrite <- F; apply stops_not_begins, drop_while_stops).
      rewrite <- E, F. rewrite (rearrange_spec (c :: d) (line ++ after) line after D R eq_refl L A).
      eapply mv_number; eauto; apply peeled_iff; reflexivity.
Qed.

(** ** Briefs *)
Lemma plain_rest_iff s b : plain_rest s b <-> lstrip_by (N.eqb 32) (rstrip_by (N.eqb 46) s) = b.
Proof.
  split.
  - intros (i & j & -> & B & E). rewrite app_assoc. unfold rstrip_by. rewrite rev_app_distr. rewrite drop_while_app.
    + rewrite (drop_while_stop (N.eqb 46)) by (apply stops_char; exact E). rewrite rev_involutive. unfold lstrip_by.
      rewrite drop_while_app by apply all_repeat. apply drop_while_stop, stops_char. exact B.
    + rewrite forallb_forall. intros y Y. apply in_rev in Y. exact (proj1 (forallb_forall _ _) (all_repeat 46 j) y Y).
  - intros <-. set (m := rstrip_by (N.eqb 46) s). destruct (rstrip_prefix (N.eqb 46) s) as (d & E & D). fold m in E.
    exists (List.length (take_while (N.eqb 32) m)), (List.length d).
    assert (M : repeat 32 (List.length (take_while (N.eqb 32) m)) ++ lstrip_by (N.eqb 32) m = m).
    { rewrite <- (repeat_all 32 _ (take_while_all _ _)). apply take_drop. }
    split; [rewrite app_assoc, M, <- (repeat_all _ _ D); exact E|]. split; [apply stops_char, drop_while_stops|]. rewrite M.
    apply stops_char. subst m. unfold rstrip_by. rewrite rev_involutive. apply drop_while_stops.
Qed.
Lemma first_sentence_iff s u : first_sentence s u <-> fst (split1 46 s) = u.
Proof.
  split.
  - intros (N & [->|(r & ->)]); [rewrite split1_notin by exact N | rewrite split1_app by exact N]; reflexivity.
  - intros <-. pose proof (split1_eq 46 s) as E. pose proof (split1_fst_not_In 46 s) as N. destruct (split1 46 s) as [h [t|]]; cbn in *; split; auto; right; eauto.
Qed.
Lemma brief_iff t o : brief_told t o <-> content_extract_brief t BRIEF_MAXLEN = o.
Proof.
  change BRIEF_MAXLEN with 60. split.
  - intros [name acr rest T C | name acr rest b T C R B L | name acr rest b u T C R B L U K | name acr rest b u T C R B L U K];
      rewrite (brief_exact _ 60 _ _ _ T); cbv zeta;
      [destruct C as [C | ->]; [apply has_char_not_In in C; rewrite C; reflexivity | rewrite orb_true_r; reflexivity] | | | ];
      apply has_char_In in C; rewrite C; apply seqb_neq in R; rewrite R; apply plain_rest_iff in B; rewrite B; cbn [negb orb].
    + apply N.leb_le in L. rewrite L. reflexivity.
    + apply first_sentence_iff in U. rewrite U. replace (N.of_nat (List.length b) <=? 60) with false by (symmetry; apply N.leb_gt; lia).
      apply N.leb_le in K. rewrite K. reflexivity.
    + apply first_sentence_iff in U. rewrite U. replace (N.of_nat (List.length b) <=? 60) with false by (symmetry; apply N.leb_gt; lia).
      replace (N.of_nat (List.length u) <=? 60) with false by (symmetry; apply N.leb_gt; lia). reflexivity.
  - intros <-. pose proof (struct_split_text t) as T. destruct (struct_split t) as [[name acr] rest].
    rewrite (brief_exact _ 60 _ _ _ T). cbv zeta. destruct (has_char 58 t) eqn:C.
    2:{ apply has_char_not_In in C. cbn [negb orb]. eapply bt_none; eauto. }
    apply has_char_In in C. destruct (seqb rest []) eqn:R; [apply seqb_eq in R; eapply bt_none; eauto|]. apply seqb_neq in R. cbn [negb orb].
    set (b := lstrip_by _ _). assert (B : plain_rest rest b) by (apply plain_rest_iff; reflexivity).
    destruct (N.leb_spec (N.of_nat (List.length b)) 60); [eapply bt_short; eauto|].
    assert (U : first_sentence b (fst (split1 46 b))) by (apply first_sentence_iff; reflexivity).
    destruct (N.leb_spec (N.of_nat (List.length (fst (split1 46 b)))) 60); [eapply bt_sentence | eapply bt_long]; eauto; lia.
Qed.
