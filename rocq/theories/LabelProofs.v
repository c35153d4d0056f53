(** Proofs about labels and briefs. *)
From Coq Require Import NArith ZArith List Bool String Lia ZifyBool ZifyN.
From Verif Require Import PyTables PyStr PyStrFacts Regex Regexes RegexFacts Xml Json Lint Helpers Extract
  MFacts SpecText SpecLabel RangeProofs.
Import ListNotations.
Local Open Scope list_scope.
Local Open Scope N_scope.
Local Open Scope m_scope.

Lemma name_char_eq c : name_char c = struct_label_char c.
Proof. unfold name_char, struct_label_char. lia. Qed.
Lemma word_or_space_eq c : word_or_space c = acronym_char c.
Proof. reflexivity. Qed.

Lemma stops_not_begins p s : stops p s <-> ~ begins p s.
Proof. symmetry. apply not_begins. Qed.

Lemma take_while_ext p q s : (forall c, p c = q c) -> take_while p s = take_while q s.
Proof. intros H. induction s as [|c s IH]; cbn; [reflexivity|]. rewrite H, IH. reflexivity. Qed.
Lemma drop_while_ext p q s : (forall c, p c = q c) -> drop_while p s = drop_while q s.
Proof. intros H. induction s as [|c s IH]; cbn; [reflexivity|]. rewrite H, IH. reflexivity. Qed.

Lemma skip1_optional c s : exists o, s = o ++ skip1 c s /\ optional c o (skip1 c s).
Proof.
  destruct s as [|x r]; cbn.
  - exists []. split; [reflexivity|]. right. split; [reflexivity|]. intros (y & t & H & _). discriminate.
  - destruct (x =? c) eqn:E.
    + exists [c]. split; [apply N.eqb_eq in E; subst; reflexivity | left; reflexivity].
    + exists []. split; [reflexivity|]. right. split; [reflexivity|].
      intros (y & t & [= <- <-] & H). unfold is_char in H. congruence.
Qed.

Lemma skip1_of_optional c o r : optional c o r -> skip1 c (o ++ r) = r.
Proof.
  intros [-> | [-> H]]; cbn.
  - rewrite N.eqb_refl. reflexivity.
  - destruct r as [|x r]; cbn; [reflexivity|]. destruct (x =? c) eqn:E; [|reflexivity].
    exfalso. apply H. exists x, r. auto.
Qed.


Lemma struct_split_text s : let '(l, a, b) := struct_split s in struct_text s l a b.
Proof.
  unfold struct_split.
  destruct (skip1_optional 40 (drop_while struct_label_char s)) as (o & Eo & Ho).
  set (r1 := skip1 40 (drop_while struct_label_char s)) in *.
  destruct (skip1_optional 41 (drop_while acronym_char r1)) as (p & Ep & Hp).
  set (r2 := skip1 41 (drop_while acronym_char r1)) in *.
  destruct (skip1_optional 58 r2) as (k & Ek & Hk).
  set (r3 := skip1 58 r2) in *.
  assert (E1 : r1 = take_while acronym_char r1 ++ p ++ k ++ r3).
  { rewrite <- Ek, <- Ep. symmetry. apply take_drop. }
  exists o, p, k. rewrite <- E1.
  rewrite <- Eo, <- Ek, <- Ep. repeat split.
  - symmetry. apply take_drop.
  - apply all_forallb. rewrite <- (take_while_all struct_label_char s).
    induction (take_while struct_label_char s) as [|c u IH]; cbn; [reflexivity|]. rewrite name_char_eq, IH. reflexivity.
  - apply stops_not_begins. pose proof (drop_while_stops struct_label_char s) as H.
    destruct (drop_while struct_label_char s); cbn in *; [exact I | rewrite name_char_eq; exact H].
  - exact Ho.
  - apply all_forallb. apply take_while_all.
  - apply stops_not_begins. apply drop_while_stops.
  - exact Hp.
  - exact Hk.
Qed.

Lemma struct_text_split s l a b : struct_text s l a b -> struct_split s = (l, a, b).
Proof.
  intros (o & p & k & -> & Hl & Sl & Ho & Ha & Sa & Hp & Hk). unfold struct_split.
  rewrite (drop_while_ext struct_label_char name_char), (take_while_ext struct_label_char name_char)
    by (intros c; symmetry; apply name_char_eq).
  apply all_forallb in Hl. apply stops_not_begins in Sl.
  apply all_forallb in Ha. apply stops_not_begins in Sa.
  rewrite drop_while_unique, take_while_unique by assumption.
  rewrite skip1_of_optional by assumption.
  rewrite drop_while_unique, take_while_unique by assumption.
  rewrite skip1_of_optional by assumption.
  rewrite skip1_of_optional by assumption. reflexivity.
Qed.

Lemma struct_text_iff s l a b : struct_text s l a b <-> struct_split s = (l, a, b).
Proof.
  split; [apply struct_text_split|]. intros H. pose proof (struct_split_text s) as P.
  rewrite H in P. exact P.
Qed.

(** ** Briefs *)
Lemma struct_split_brief s : exists u, s = u ++ snd (struct_split s).
Proof.
  pose proof (struct_split_text s) as P. destruct (struct_split s) as [[l a] b].
  destruct P as (o & p & k & -> & _). cbn [snd]. exists (l ++ o ++ a ++ p ++ k).
  rewrite <- !app_assoc. reflexivity.
Qed.

Lemma brief_group s :
  grp G_brief (re_match STRUCT_LABEL_REGEX s) =
  match snd (struct_split s) with [] => None | b => Some b end.
Proof.
  rewrite STRUCT_LABEL_REGEX_spec. destruct (struct_split s) as [[l a] b]. cbn [snd].
  destruct b; reflexivity.
Qed.
Lemma acronym_group s :
  grp G_acronym (re_match STRUCT_LABEL_REGEX s) = Some (snd (fst (struct_split s))).
Proof.
  rewrite STRUCT_LABEL_REGEX_spec. destruct (struct_split s) as [[l a] b]. cbn [snd fst].
  destruct b; reflexivity.
Qed.
Lemma label_group s :
  grp G_label (re_match STRUCT_LABEL_REGEX s) = Some (fst (fst (struct_split s))).
Proof.
  rewrite STRUCT_LABEL_REGEX_spec. destruct (struct_split s) as [[l a] b]. cbn [snd fst].
  destruct b; reflexivity.
Qed.

Lemma piece_refl a : piece_of a a.
Proof. exists [], []. rewrite app_nil_r. reflexivity. Qed.
Lemma piece_trans a b c : piece_of a b -> piece_of b c -> piece_of a c.
Proof.
  intros (u & v & ->) (u' & v' & ->). exists (u' ++ u), (v ++ v').
  rewrite <- !app_assoc. reflexivity.
Qed.
Lemma piece_prefix a b : piece_of a (a ++ b). Proof. exists [], b. reflexivity. Qed.
Lemma piece_suffix a b : piece_of b (a ++ b). Proof. exists a, []. rewrite app_nil_r. reflexivity. Qed.

Lemma lstrip_piece p s : piece_of (lstrip_by p s) s.
Proof. destruct (drop_while_suffix p s) as (a & E). exists a, []. rewrite app_nil_r. exact E. Qed.
Lemma rstrip_piece p s : piece_of (rstrip_by p s) s.
Proof. destruct (rstrip_prefix p s) as (b & E & _). exists [], b. exact E. Qed.
Lemma split1_prefix c s : exists t, s = fst (split1 c s) ++ t.
Proof.
  pose proof (split1_eq c s) as E. destruct (split1 c s) as [h [t|]]; cbn.
  - exists (c :: t). exact E.
  - exists []. rewrite app_nil_r. exact E.
Qed.

Lemma brief_spec txt n b :
  content_extract_brief txt n = Some b ->
  N.of_nat (List.length b) <= n /\ In 58 txt /\ ~ begins (is_char 32) b /\ piece_of b txt.
Proof.
  unfold content_extract_brief. destruct (has_char 58 txt) eqn:C; cbn [negb]; [|discriminate].
  apply has_char_In in C. rewrite brief_group.
  destruct (struct_split_brief txt) as (u & Eu).
  assert (P0 : piece_of (snd (struct_split txt)) txt) by (rewrite Eu at 2; apply piece_suffix).
  set (b0 := snd (struct_split txt)) in *. clearbody b0. clear Eu.
  destruct b0 as [|b0c b0']; [discriminate|].
  set (b0 := b0c :: b0') in *. clearbody b0.
  set (br := lstrip_by (N.eqb 32) (rstrip_by (N.eqb 46) b0)).
  assert (P1 : piece_of br txt).
  { eapply piece_trans; [apply lstrip_piece|]. eapply piece_trans; [apply rstrip_piece|]. exact P0. }
  assert (S1 : ~ begins (is_char 32) br).
  { apply stops_not_begins. pose proof (drop_while_stops (N.eqb 32) (rstrip_by (N.eqb 46) b0)) as H.
    unfold br, lstrip_by. destruct (drop_while _ _); cbn in *; [exact I|]. unfold is_char. rewrite N.eqb_sym. exact H. }
  destruct (N.of_nat (List.length br) <=? n) eqn:L.
  - intros [= <-]. split; [lia | auto].
  - destruct (split1_prefix 46 br) as (t & Et).
    destruct (N.of_nat (List.length (fst (split1 46 br))) <=? n) eqn:L2; [|discriminate].
    intros [= <-]. split; [lia|]. split; [exact C|]. split.
    + intros (c & r & E & H). apply S1. exists c, (r ++ t). rewrite Et, E. auto.
    + eapply piece_trans; [|exact P1]. exists [], t. exact Et.
Qed.

(** Exact value of a brief. *)
Lemma brief_exact txt n name acr rest :
  struct_text txt name acr rest ->
  content_extract_brief txt n =
  if negb (has_char 58 txt) || seqb rest [] then None
  else let b := lstrip_by (N.eqb 32) (rstrip_by (N.eqb 46) rest) in
       if N.of_nat (List.length b) <=? n then Some b
       else if N.of_nat (List.length (fst (split1 46 b))) <=? n then Some (fst (split1 46 b)) else None.
Proof.
  intros H. apply struct_text_split in H. unfold content_extract_brief. rewrite brief_group, H.
  cbn [snd]. destruct (has_char 58 txt); cbn [negb orb]; [|reflexivity].
  destruct rest; reflexivity.
Qed.

(** ** Validation *)
Lemma ascii_alpha_eq c : ascii_letter_char c = ascii_alpha c.
Proof. unfold ascii_letter_char, ascii_alpha. lia. Qed.

Lemma at_end_cases s : at_end s = true <-> s = [] \/ s = [10].
Proof.
  destruct s as [|x [|y r]]; cbn; split; intros H; auto; try discriminate.
  - right. apply N.eqb_eq in H. subst. reflexivity.
  - destruct H as [H | [= ->]]; [discriminate | reflexivity].
  - destruct H; discriminate.
Qed.

Lemma is_identifier_iff s : is_identifier s = true <-> identifier_nl s.
Proof.
  unfold is_identifier, identifier_nl. destruct s as [|c r].
  - split; [discriminate | intros (c & r & nl & H & _); discriminate].
  - rewrite andb_true_iff, at_end_cases. split.
    + intros [H1 H2]. exists c, (take_while isword r), (drop_while isword r).
      rewrite take_drop, ascii_alpha_eq. repeat split; auto. apply all_forallb. apply take_while_all.
    + intros (c' & u & nl & [= <- ->] & H1 & H2 & H3). rewrite <- ascii_alpha_eq. split; [exact H1|].
      apply all_forallb in H2. rewrite drop_while_app by exact H2.
      destruct H3 as [-> | ->]; [left; reflexivity | right; reflexivity].
Qed.

Lemma is_ellipsis_label_iff s : is_ellipsis_label s = true <-> dotted s \/ ellipsis_text s.
Proof.
  unfold is_ellipsis_label. rewrite orb_true_iff. split.
  - intros [H | H].
    + left. exists (take_while isspace s). destruct (drop_while isspace s) as [|c r] eqn:E; [discriminate|].
      apply N.eqb_eq in H. subst. exists r. split.
      * rewrite <- E. symmetry. apply take_drop.
      * apply all_forallb. apply take_while_all.
    + right. destruct s as [|c r]; [discriminate|]. apply andb_true_iff in H as [H1 H2].
      apply N.eqb_eq in H1. subst. exists r. split; [reflexivity|]. apply all_forallb. exact H2.
  - intros [(w & r & -> & H) | (w & -> & H)].
    + left. apply all_forallb in H. rewrite drop_while_app by exact H. reflexivity.
    + right. apply all_forallb in H. rewrite H. reflexivity.
Qed.

Lemma label_invalid_eq s : label_invalid s = negb (is_identifier s || is_ellipsis_label s).
Proof.
  unfold label_invalid. rewrite LABEL_VALIDATION_REGEX_spec, ELLIPSIS_LABEL_REGEX_spec.
  destruct (is_identifier s), (is_ellipsis_label s); reflexivity.
Qed.

Lemma label_invalid_iff s : label_invalid s = false <-> valid_label s.
Proof.
  rewrite label_invalid_eq, negb_false_iff, orb_true_iff, is_identifier_iff, is_ellipsis_label_iff.
  reflexivity.
Qed.

Definition l1004 (fig row lbl : str) : event :=
  EvLint (mkLint L1004 fig (code_msg L1004) (Some row) [(utf8 "label", JStr lbl)]).

Lemma validate_label_ok lbl fig row f : valid_label lbl -> validate_label lbl fig row f = (Ok tt, f, []).
Proof. intros H. unfold validate_label. rewrite (proj2 (label_invalid_iff lbl) H). reflexivity. Qed.
Lemma validate_label_bad lbl fig row f :
  fig <> [] -> ~ valid_label lbl -> validate_label lbl fig row f = (Ok tt, f, [l1004 fig row lbl]).
Proof.
  intros Hf H. unfold validate_label. destruct (label_invalid lbl) eqn:E.
  - apply add_issue_row. exact Hf.
  - apply label_invalid_iff in E. contradiction.
Qed.
Lemma valid_label_dec s : {valid_label s} + {~ valid_label s}.
Proof.
  destruct (label_invalid s) eqn:E; [right | left]; [|apply label_invalid_iff; exact E].
  intros H. apply label_invalid_iff in H. congruence.
Qed.

(** ** Normalisation *)
Lemma normalize_unfold s :
  normalize_label s = upper (replace_pair 95 [95] (replace_char 45 [95] (replace_char 47 [] (replace_char 32 [95] (strip s))))).
Proof. reflexivity. Qed.

Lemma replace_char_In c by_ s d :
  In d (replace_char c by_ s) -> (In d s /\ d <> c) \/ In d by_.
Proof.
  unfold replace_char. rewrite in_flat_map. intros (x & Hx & H).
  destruct (x =? c) eqn:E; [right; exact H|]. destruct H as [<- | []]. left. split; [exact Hx|].
  apply N.eqb_neq. exact E.
Qed.

Lemma replace_pair_nil c by_ : replace_pair c by_ [] = []. Proof. reflexivity. Qed.
Lemma replace_pair_one c by_ x : replace_pair c by_ [x] = [x]. Proof. reflexivity. Qed.
Lemma replace_pair_two c by_ x y r :
  replace_pair c by_ (x :: y :: r) =
  if (x =? c) && (y =? c) then by_ ++ replace_pair c by_ r else x :: replace_pair c by_ (y :: r).
Proof. reflexivity. Qed.

Lemma pair_ind (P : str -> Prop) :
  P [] -> (forall x, P [x]) -> (forall x y r, P r -> P (y :: r) -> P (x :: y :: r)) -> forall s, P s.
Proof.
  intros H0 H1 H2. assert (H : forall s, P s /\ forall x, P (x :: s)).
  { induction s as [|y s [I1 I2]]; [split; auto|]. split; [apply I2|]. intros x. apply H2; [exact I1 | apply I2]. }
  intros s. apply H.
Qed.

Lemma replace_pair_In c s d : In d (replace_pair c [c] s) -> In d s.
Proof.
  revert d. apply (pair_ind (fun s => forall d, In d (replace_pair c [c] s) -> In d s)).
  - auto.
  - auto.
  - intros x y r I1 I2 d. rewrite replace_pair_two.
    destruct ((x =? c) && (y =? c)) eqn:E.
    + apply andb_true_iff in E as [E1 E2]. apply N.eqb_eq in E1, E2. subst.
      intros [<- | H]; [left; reflexivity | right; right; auto].
    + intros [<- | H]; [left; reflexivity | right; apply I2; exact H].
Qed.

Lemma normalize_no_sep s d : In d (normalize_label s) -> d <> 32 /\ d <> 47 /\ d <> 45.
Proof.
  intros H. rewrite normalize_unfold in H.
  assert (A : forall d, d = 32 \/ d = 47 \/ d = 45 ->
     ~ In d (upper (replace_pair 95 [95] (replace_char 45 [95] (replace_char 47 [] (replace_char 32 [95] (strip s))))))).
  { clear. intros d Hd H.
    apply upper_In_ascii in H; [| lia | destruct Hd as [-> | [-> | ->]]; reflexivity].
    apply replace_pair_In in H.
    apply replace_char_In in H as [[H N1] | [H | []]]; [|lia].
    apply replace_char_In in H as [[H N2] | []].
    apply replace_char_In in H as [[H N3] | [H | []]]; [|lia]. lia. }
  repeat split; intros ->; revert H; apply A; auto.
Qed.

Lemma normalize_upper s : upper (normalize_label s) = normalize_label s.
Proof. rewrite normalize_unfold. apply upper_idem. Qed.

(** Ends *)
Lemma upper_head s c r : upper s = c :: r -> exists d t, s = d :: t /\ In c (upper_char d).
Proof.
  destruct s as [|d t]; [discriminate|]. intros E. exists d, t. split; [reflexivity|].
  unfold upper in E. cbn in E. destruct (upper_char d) as [|u us] eqn:U; [destruct (upper_char_nonempty d U)|].
  injection E as <- _. left. reflexivity.
Qed.
Lemma upper_last s c r : rev (upper s) = c :: r -> exists d t, rev s = d :: t /\ In c (upper_char d).
Proof.
  destruct (rev s) as [|d t] eqn:R.
  - apply (f_equal (@rev N)) in R. rewrite rev_involutive in R. subst. discriminate.
  - intros E. exists d, t. split; [reflexivity|].
    apply (f_equal (@rev N)) in R. rewrite rev_involutive in R. cbn in R. subst s.
    rewrite upper_app, rev_app_distr in E. cbn [upper flat_map] in E. rewrite app_nil_r in E.
    destruct (rev (upper_char d)) as [|u us] eqn:U.
    + apply (f_equal (@rev N)) in U. rewrite rev_involutive in U. destruct (upper_char_nonempty d U).
    + injection E as <- _. apply in_rev. rewrite U. left. reflexivity.
Qed.

Lemma stops_upper s : stops isspace s -> stops isspace (upper s).
Proof.
  intros H. destruct (upper s) as [|c r] eqn:E; [exact I|].
  destruct (upper_head s c r E) as (d & t & -> & Hc). cbn in *.
  destruct (isspace c) eqn:S; [|reflexivity].
  rewrite (upper_char_space d c Hc S) in H. congruence.
Qed.
Lemma stops_upper_rev s : stops isspace (rev s) -> stops isspace (rev (upper s)).
Proof.
  intros H. destruct (rev (upper s)) as [|c r] eqn:E; [exact I|].
  destruct (upper_last s c r E) as (d & t & R & Hc). rewrite R in H. cbn in *.
  destruct (isspace c) eqn:S; [|reflexivity].
  rewrite (upper_char_space d c Hc S) in H. congruence.
Qed.

(** Character for character replacements as maps. *)
Definition subst_char (c d x : N) : N := if x =? c then d else x.
Lemma replace_char_map c d s : replace_char c [d] s = map (subst_char c d) s.
Proof.
  unfold replace_char, subst_char. induction s as [|x s IH]; cbn; [reflexivity|]. rewrite IH.
  destruct (x =? c); reflexivity.
Qed.
Lemma replace_char_filter c s : replace_char c [] s = filter (fun x => negb (x =? c)) s.
Proof.
  unfold replace_char. induction s as [|x s IH]; cbn; [reflexivity|]. rewrite IH. destruct (x =? c); reflexivity.
Qed.

Lemma stops_map_subst c d s : isspace d = false -> stops isspace s -> stops isspace (map (subst_char c d) s).
Proof.
  intros Hd H. destruct s as [|x s]; [exact I|]. cbn in *. unfold subst_char. destruct (x =? c); assumption.
Qed.

Lemma stops_replace_pair s : stops isspace s -> stops isspace (replace_pair 95 [95] s).
Proof.
  destruct s as [|x [|y r]]; intros H; [exact I | exact H|]. rewrite replace_pair_two.
  destruct (_ && _); [reflexivity | exact H].
Qed.

(** The last character of a replace_pair result is the last one, or an underscore. *)
Lemma replace_pair_last s : stops isspace (rev s) -> stops isspace (rev (replace_pair 95 [95] s)).
Proof.
  apply (pair_ind (fun s => stops isspace (rev s) -> stops isspace (rev (replace_pair 95 [95] s)))).
  - auto.
  - auto.
  - intros x y r I1 I2 H. rewrite replace_pair_two.
    assert (Hy : stops isspace (rev (y :: r))).
    { cbn in H |- *. destruct (rev r); cbn in *; exact H. }
    destruct ((x =? 95) && (y =? 95)) eqn:E.
    + cbn [app rev]. destruct (rev (replace_pair 95 [95] r)) as [|c t] eqn:R; [reflexivity|].
      cbn. assert (Hr : stops isspace (rev r)).
      { cbn in Hy. destruct (rev r); cbn in *; [exact I | exact Hy]. }
      specialize (I1 Hr). exact I1.
    + specialize (I2 Hy). cbn [rev]. destruct (rev (replace_pair 95 [95] (y :: r))) as [|c t] eqn:R.
      * exfalso. apply (f_equal (@rev N)) in R. rewrite rev_involutive in R. cbn [rev] in R.
        destruct r as [|z r]; [discriminate|]. rewrite replace_pair_two in R.
        destruct (_ && _); discriminate.
      * cbn. exact I2.
Qed.

Lemma normalize_trimmed s : ~ In 47 s -> trimmed (normalize_label s).
Proof.
  intros N47. rewrite normalize_unfold.
  assert (E : replace_char 47 [] (replace_char 32 [95] (strip s)) = replace_char 32 [95] (strip s)).
  { rewrite replace_char_filter.
    assert (F : forall t, ~ In 47 t -> filter (fun x => negb (x =? 47)) t = t).
    { induction t as [|c t IH]; intros H; [reflexivity|]. cbn.
      destruct (c =? 47) eqn:E; [apply N.eqb_eq in E; exfalso; apply H; left; auto|]. cbn. f_equal. apply IH.
      intros H'. apply H. right. exact H'. }
    apply F. intros H. apply replace_char_In in H as [[H _] | [H | []]]; [|lia].
    apply N47. exact (strip_In _ _ _ H). }
  rewrite E. rewrite !replace_char_map.
  destruct (strip_ends isspace s) as [S1 S2]. fold (strip s) in S1, S2.
  split; apply stops_not_begins.
  - apply stops_upper, stops_replace_pair, stops_map_subst; [reflexivity|].
    apply stops_map_subst; [reflexivity | exact S1].
  - apply stops_upper_rev, replace_pair_last. rewrite <- !map_rev.
    apply stops_map_subst; [reflexivity|]. apply stops_map_subst; [reflexivity | exact S2].
Qed.

(** Idempotence *)
Lemma replace_pair_id s : (forall a b, s <> a ++ 95 :: 95 :: b) -> replace_pair 95 [95] s = s.
Proof.
  apply (pair_ind (fun s => (forall a b, s <> a ++ 95 :: 95 :: b) -> replace_pair 95 [95] s = s)).
  - reflexivity.
  - reflexivity.
  - intros x y r _ I2 H. rewrite replace_pair_two.
    destruct ((x =? 95) && (y =? 95)) eqn:E.
    + apply andb_true_iff in E as [E1 E2]. apply N.eqb_eq in E1, E2. subst. destruct (H [] r). reflexivity.
    + f_equal. apply I2. intros a b E'. apply (H (x :: a) b). cbn. rewrite E'. reflexivity.
Qed.

Lemma replace_char_id c by_ s : ~ In c s -> replace_char c by_ s = s.
Proof.
  intros H. unfold replace_char. apply flat_map_id_on. intros x Hx.
  destruct (x =? c) eqn:E; [|reflexivity]. apply N.eqb_eq in E. subst. contradiction.
Qed.

(** The clean-up without upper-casing is the identity on a normal form. *)
Lemma normalize_fix t :
  trimmed t -> (forall d, In d t -> d <> 32 /\ d <> 47 /\ d <> 45) ->
  (forall a b, t <> a ++ 95 :: 95 :: b) -> normalize_label t = upper t.
Proof.
  intros [T1 T2] Hs Hp. rewrite normalize_unfold. f_equal.
  unfold strip. rewrite strip_of_stripped by (apply stops_not_begins; assumption).
  rewrite (replace_char_id 32), (replace_char_id 47), (replace_char_id 45), replace_pair_id.
  - reflexivity.
  - exact Hp.
  - intros H. apply Hs in H. lia.
  - intros H. apply Hs in H. lia.
  - intros H. apply Hs in H. lia.
Qed.

Lemma upper_no_pair s : (forall a b, s <> a ++ 95 :: 95 :: b) -> forall a b, upper s <> a ++ 95 :: 95 :: b.
Proof.
  assert (U1 : forall c, In 95 (upper_char c) -> upper_char c = [95] /\ c = 95).
  { intros c H. apply upper_char_ascii in H; [subst; auto | lia | reflexivity]. }
  intros Hs a b E.
  assert (G : forall s a b, upper s = a ++ 95 :: b -> exists u v, s = u ++ 95 :: v /\ upper u = a /\ upper v = b).
  { clear - U1. induction s as [|c s IH]; intros a b E; [destruct a; discriminate|].
    change (upper (c :: s)) with (upper_char c ++ upper s) in E.
    destruct (in_dec N.eq_dec 95 (upper_char c)) as [Hi | Hn].
    - destruct (U1 c Hi) as [U ->]. rewrite U in E. destruct a as [|x a]; cbn in E.
      + injection E as E. exists [], s. auto.
      + injection E as <- E. destruct (IH a b E) as (u & v & -> & <- & <-).
        exists (95 :: u), v. split; [reflexivity|]. split; [|reflexivity].
        change (upper (95 :: u)) with (upper_char 95 ++ upper u). rewrite U. reflexivity.
    - assert (exists a', a = upper_char c ++ a' /\ upper s = a' ++ 95 :: b) as (a' & -> & E').
      { clear IH U1. revert a E Hn. induction (upper_char c) as [|x l IHl]; intros a E Hn.
        - exists a. auto.
        - destruct a as [|y a]; cbn in E.
          + injection E as -> _. exfalso. apply Hn. left. reflexivity.
          + injection E as <- E. destruct (IHl a E) as (a' & -> & E').
            { intros H. apply Hn. right. exact H. }
            exists a'. auto. }
      destruct (IH a' b E') as (u & v & -> & <- & <-). exists (c :: u), v. auto. }
  destruct (G s a (95 :: b) E) as (u & v & -> & _ & Ev).
  destruct (G v [] b Ev) as (u' & v' & -> & Eu & _).
  assert (u' = []) by (destruct u' as [|d u']; [reflexivity|]; change (upper (d :: u')) with (upper_char d ++ upper u') in Eu;
     destruct (upper_char d) eqn:U; [destruct (upper_char_nonempty d U) | discriminate]). subst.
  apply (Hs u v'). reflexivity.
Qed.

Lemma sparse_cons x s : sparse (x :: s) -> sparse s.
Proof. intros H a u v b E Hu. apply (H (x :: a) u v b); [rewrite E; reflexivity | exact Hu]. Qed.

Definition to_us (c : N) : N := if (c =? 32) || (c =? 45) then 95 else c.
Lemma sparse_body s :
  replace_char 45 [95] (replace_char 47 [] (replace_char 32 [95] s))
  = map to_us (filter (fun x => negb (x =? 47)) s).
Proof.
  rewrite replace_char_map, replace_char_filter, replace_char_map.
  induction s as [|c s IH]; [reflexivity|]. cbn. unfold subst_char at 2. unfold to_us at 1.
  destruct (c =? 32) eqn:E1.
  - apply N.eqb_eq in E1. subst. cbn. f_equal. exact IH.
  - destruct (c =? 47) eqn:E2; cbn; [exact IH|]. cbn [orb]. rewrite IH. unfold subst_char.
    destruct (c =? 45) eqn:E3; unfold to_us; rewrite ?E1, ?E3; reflexivity.
Qed.

Lemma to_us_95 c : to_us c = 95 -> sep_char c = true.
Proof. unfold to_us, sep_char. intros H. destruct (c =? 32) eqn:E1.
  - apply N.eqb_eq in E1. subst. reflexivity.
  - cbn [orb] in H. destruct (c =? 45) eqn:E2; lia.
Qed.

Lemma sparse_no_pair s : sparse s -> forall a b, map to_us (filter (fun x => negb (x =? 47)) s) <> a ++ 95 :: 95 :: b.
Proof.
  intros Hs a b E. revert a E. induction s as [|x s IH]; intros a E; [destruct a; discriminate|].
  cbn in E. destruct (x =? 47) eqn:X; cbn in E.
  - apply (IH (sparse_cons _ _ Hs) a E).
  - destruct a as [|y a]; cbn in E; [|injection E as _ E; apply (IH (sparse_cons _ _ Hs) a E)].
    injection E as E1 E. apply to_us_95 in E1.
    destruct s as [|z s]; [discriminate|].
    assert (Z := Hs [] x z s eq_refl E1). cbn in E.
    assert (z =? 47 = false) by (unfold sep_char in Z; lia). rewrite H in E. cbn in E.
    injection E as E2 _. apply to_us_95 in E2. congruence.
Qed.

Lemma sparse_filter_stops s : sparse s -> stops isspace s ->
  stops isspace (map to_us (filter (fun x => negb (x =? 47)) s)).
Proof.
  intros Hs H. destruct s as [|x s]; [exact I|]. cbn in H |- *.
  assert (T : forall c, isspace c = false -> isspace (to_us c) = false).
  { intros c Hc. unfold to_us. destruct (_ || _); [reflexivity | exact Hc]. }
  destruct (x =? 47) eqn:X; cbn; [|apply T; exact H].
  destruct s as [|z s]; [exact I|].
  assert (Z : sep_char z = false) by (apply (Hs [] x z s eq_refl); unfold sep_char; lia).
  cbn. assert (z =? 47 = false) by (unfold sep_char in Z; lia). rewrite H0. cbn. apply T.
  unfold sep_char in Z. lia.
Qed.

Lemma sparse_rev s : sparse s -> sparse (rev s).
Proof.
  intros H a x y b E Hx. apply (f_equal (@rev N)) in E. rewrite rev_involutive in E.
  rewrite rev_app_distr in E. cbn in E. rewrite <- !app_assoc in E. cbn in E.
  destruct (sep_char y) eqn:Y; [|reflexivity]. rewrite (H (rev b) y x (rev a) E Y) in Hx. discriminate.
Qed.

Lemma filter_rev' {A} (p : A -> bool) l : filter p (rev l) = rev (filter p l).
Proof.
  induction l as [|x l IH]; [reflexivity|]. cbn. rewrite filter_app, IH. cbn.
  destruct (p x); cbn; [reflexivity | apply app_nil_r].
Qed.

Lemma sparse_piece a s b : sparse (a ++ s ++ b) -> sparse s.
Proof.
  intros H u x y v E Hx. apply (H (a ++ u) x y (v ++ b)); [|exact Hx]. rewrite E.
  rewrite <- !app_assoc. reflexivity.
Qed.

Lemma normalize_idem s : sparse (strip s) -> normalize_label (normalize_label s) = normalize_label s.
Proof.
  intros Hs. rewrite (normalize_fix (normalize_label s)); [apply normalize_upper | | apply normalize_no_sep |].
  - rewrite normalize_unfold, sparse_body. rewrite replace_pair_id by (apply sparse_no_pair; exact Hs).
    destruct (strip_ends isspace s) as [S1 S2]. fold (strip s) in S1, S2.
    split; apply stops_not_begins.
    + apply stops_upper, sparse_filter_stops; assumption.
    + apply stops_upper_rev. rewrite <- map_rev, <- filter_rev'. apply sparse_filter_stops; [|exact S2].
      apply sparse_rev. exact Hs.
  - rewrite normalize_unfold, sparse_body. rewrite replace_pair_id by (apply sparse_no_pair; exact Hs).
    apply upper_no_pair, sparse_no_pair. exact Hs.
Qed.

(** ** Words and initials *)
Definition nonspace (c : N) : bool := negb (isspace c).

Lemma words_aux_app cur u s :
  all nonspace u -> words_aux cur (u ++ s) = words_aux (rev u ++ cur) s.
Proof.
  revert cur. induction u as [|c u IH]; intros cur H; [reflexivity|].
  inversion H as [|? ? H1 H2]; subst. cbn [app words_aux].
  unfold nonspace in H1. destruct (isspace c); [discriminate|]. rewrite IH by exact H2.
  cbn [rev]. rewrite <- app_assoc. reflexivity.
Qed.

Lemma words_aux_blanks w s : blanks w -> words_aux [] (w ++ s) = words_aux [] s.
Proof.
  induction w as [|c w IH]; intros H; [reflexivity|]. inversion H as [|? ? H1 H2]; subst.
  cbn [app words_aux]. rewrite H1. apply IH. exact H2.
Qed.

Lemma words_of_words s us : words_of s us -> words s = us.
Proof.
  unfold words. induction 1 as [w Hw | w u rest us Hw Hu Ha Hr _ IH].
  - rewrite <- (app_nil_r w), words_aux_blanks by exact Hw. reflexivity.
  - rewrite words_aux_blanks by exact Hw. rewrite words_aux_app by exact Ha. rewrite app_nil_r.
    assert (Hne : rev u <> []) by (intros E; apply (f_equal (@rev N)) in E; rewrite rev_involutive in E; contradiction).
    destruct (rev u) as [|c cu] eqn:Eu; [congruence|]. rewrite <- IH.
    destruct rest as [|d rest]; cbn [words_aux].
    + rewrite <- Eu, rev_involutive. reflexivity.
    + destruct (isspace d) eqn:D.
      * rewrite <- Eu, rev_involutive. reflexivity.
      * exfalso. apply Hr. exists d, rest. rewrite D. auto.
Qed.

Lemma words_of_exists s : exists us, words_of s us.
Proof.
  remember (List.length s) as n eqn:En. revert s En.
  induction n as [n IH] using lt_wf_ind. intros s En. subst.
  destruct (drop_while isspace s) as [|c r] eqn:D.
  - exists []. apply wo_end. rewrite <- (take_drop isspace s), D, app_nil_r.
    apply all_forallb. apply take_while_all.
  - set (t := c :: r) in *. destruct (IH (List.length (drop_while nonspace t))) with (s := drop_while nonspace t) as (us & H).
    + assert (L := drop_while_length isspace s). rewrite D in L.
      assert (L2 := take_drop nonspace t). apply (f_equal (@List.length N)) in L2. rewrite app_length in L2.
      assert (nonspace c = true) by (unfold nonspace; rewrite (drop_while_head _ _ _ _ D); reflexivity).
      unfold t in L2 at 1. cbn [take_while] in L2. rewrite H in L2. cbn [List.length] in L2. fold t in L. lia.
    + reflexivity.
    + exists (take_while nonspace t :: us).
      rewrite <- (take_drop isspace s), D. fold t. rewrite <- (take_drop nonspace t) at 1.
      apply wo_word; [apply all_forallb, take_while_all | | apply all_forallb; apply (take_while_all nonspace) | | exact H].
      * unfold t. cbn. unfold nonspace at 1. rewrite (drop_while_head _ _ _ _ D). discriminate.
      * apply stops_not_begins. apply (drop_while_stops nonspace).
Qed.

Lemma initials_first s us : words_of s us -> initials s = first_letters us.
Proof. intros H. unfold initials, first_letters. rewrite (words_of_words s us H).
  clear H. induction us as [|u us IH]; [reflexivity|]. cbn. rewrite IH. destruct u; reflexivity.
Qed.

(** ** Struct labels *)
Definition special_word (s : str) : Prop := smem (upper s) SPECIAL_CASE_SET = true.

Lemma same_groups s name acr rest :
  struct_text s name acr rest ->
  exists g, re_match STRUCT_LABEL_REGEX s = Some g
    /\ group G_acronym g = Some acr /\ group G_label g = Some name.
Proof.
  intros H. apply struct_text_split in H.
  pose proof (acronym_group s) as A. pose proof (label_group s) as B. rewrite H in A, B.
  destruct (re_match STRUCT_LABEL_REGEX s) as [g|]; [|discriminate]. exists g. auto.
Qed.

Lemma same_acronym x s name acr rest key f :
  struct_text s name acr rest -> acr <> [] -> extract_label_same x s key f = (Ok acr, f, []).
Proof.
  intros H Ha. destruct (same_groups s name acr rest H) as (g & E & G1 & G2).
  unfold extract_label_same. rewrite E. unfold grp_nonempty, grp. rewrite G1.
  destruct acr; [congruence|]. reflexivity.
Qed.

Lemma same_initials x s name rest key us f :
  struct_text s name [] rest -> name <> [] -> ~ special_word name -> words_of name us ->
  extract_label_same x s key f = (Ok (lower (first_letters us)), f, []).
Proof.
  intros H Hn Hs Hw. destruct (same_groups s name [] rest H) as (g & E & G1 & G2).
  unfold extract_label_same. rewrite E. unfold grp_nonempty, grp. rewrite G1, G2.
  destruct name as [|c name]; [congruence|]. unfold special_word in Hs.
  destruct (smem _ _); [exfalso; apply Hs; reflexivity|].
  unfold generate_acronym. rewrite (initials_first _ _ Hw). reflexivity.
Qed.

Lemma same_special x s name rest key f :
  struct_text s name [] rest -> name <> [] -> special_word name ->
  extract_label_same x s key f = (Ok name, f, []).
Proof.
  intros H Hn Hs. destruct (same_groups s name [] rest H) as (g & E & G1 & G2).
  unfold extract_label_same. rewrite E. unfold grp_nonempty, grp. rewrite G1, G2.
  destruct name as [|c name]; [congruence|]. unfold special_word in Hs. rewrite Hs. reflexivity.
Qed.

Definition row_ev (c : code) (x : xctx) (key : str) : event :=
  EvLint (mkLint c (x_fig x) (code_msg c) (Some key) []).

Lemma same_failed x s rest key f :
  x_fig x <> [] -> struct_text s [] [] rest ->
  extract_label_same x s key f = (Ok s, f, [row_ev L1000 x key]).
Proof.
  intros Hx H. destruct (same_groups s [] [] rest H) as (g & E & G1 & G2).
  unfold extract_label_same. rewrite E. unfold grp_nonempty, grp. rewrite G1, G2.
  unfold issue, bind. rewrite add_issue_row by exact Hx. reflexivity.
Qed.

Lemma separate_colon x h t key f :
  x_fig x <> [] -> ~ In 58 h ->
  extract_label_separate x (h ++ 58 :: t) key f
  = (Ok h, f, if has_char 32 h then [row_ev L1004 x key] else []).
Proof.
  intros Hx Hh. unfold extract_label_separate. rewrite split1_app by exact Hh.
  unfold bind, issue. destruct (has_char 32 h); [rewrite add_issue_row by exact Hx|]; reflexivity.
Qed.
Lemma separate_nocolon x s us key f :
  x_fig x <> [] -> ~ In 58 s -> words_of s us ->
  extract_label_separate x s key f = (Ok (first_letters us), f, [row_ev L1003 x key]).
Proof.
  intros Hx Hs Hw. unfold extract_label_separate. rewrite split1_notin by exact Hs.
  unfold bind, issue. rewrite add_issue_row by exact Hx. rewrite (initials_first _ _ Hw). reflexivity.
Qed.

(** What validation records for a normalised label. *)
Definition label_check (x : xctx) (key l : str) (evs : list event) : Prop :=
  (valid_label l /\ evs = []) \/ (~ valid_label l /\ evs = [l1004 (x_fig x) key l]).

Lemma label_check_exists x key l f : x_fig x <> [] ->
  exists evs, validate_label l (x_fig x) key f = (Ok tt, f, evs) /\ label_check x key l evs.
Proof.
  intros Hx. destruct (valid_label_dec l) as [V | V].
  - exists []. split; [apply validate_label_ok; exact V | left; auto].
  - exists [l1004 (x_fig x) key l]. split; [apply validate_label_bad; assumption | right; auto].
Qed.

Lemma parse_label_of x s key f l t :
  x_fig x <> [] ->
  (if Nat.eqb (x_content x) (x_label x) then extract_label_same x s key
   else extract_label_separate x s key) f = (Ok l, f, t) ->
  exists evs, parse_label x s key f = (Ok (lower (normalize_label l)), f, t ++ evs)
    /\ label_check x key (normalize_label l) evs.
Proof.
  intros Hx H. destruct (label_check_exists x key (normalize_label l) f Hx) as (evs & E & C).
  exists evs. split; [|exact C]. unfold parse_label, bind at 1. rewrite H.
  unfold bind. rewrite E. cbn. rewrite app_nil_r. reflexivity.
Qed.

(** parse_label always ends normally; its events are the extraction's and at most L1004. *)
Lemma extract_total x s key f :
  x_fig x <> [] ->
  exists l t, (if Nat.eqb (x_content x) (x_label x) then extract_label_same x s key
               else extract_label_separate x s key) f = (Ok l, f, t).
Proof.
  intros Hx. destruct (Nat.eqb _ _).
  - pose proof (struct_split_text s) as P. destruct (struct_split s) as [[name acr] rest].
    destruct acr as [|a acr]; [|eexists; eexists; apply (same_acronym _ _ _ _ _ _ _ P); discriminate].
    destruct name as [|n name].
    + eexists; eexists; apply (same_failed _ _ _ _ _ Hx P).
    + destruct (smem (upper (n :: name)) SPECIAL_CASE_SET) eqn:S.
      * eexists; eexists; apply (same_special _ _ _ _ _ _ P); [discriminate | exact S].
      * destruct (words_of_exists (n :: name)) as (us & W).
        eexists; eexists. apply (same_initials _ _ _ _ _ us _ P); [discriminate | | exact W].
        unfold special_word. congruence.
  - destruct (in_dec N.eq_dec 58 s) as [I | I].
    + pose proof (split1_eq 58 s) as E. pose proof (split1_fst_not_In 58 s) as N1.
      pose proof (split1_none 58 s) as N2. destruct (split1 58 s) as [h [t|]]; cbn in *.
      * rewrite E. eexists; eexists. apply separate_colon; assumption.
      * destruct (proj1 N2 eq_refl I).
    + destruct (words_of_exists s) as (us & W). eexists; eexists. apply (separate_nocolon x s us key f Hx I W).
Qed.

(** ** Emitted labels are identifiers *)
Lemma lower_char_blank c : isspace c = true -> lower_char c = [c].
Proof.
  intros H. destruct (isspace_cases c H) as [-> | [H1 | [H1 | H1]]].
  - reflexivity.
  - unfold lower_char. replace (c <? 128) with true by lia. replace ((65 <=? c) && (c <=? 90)) with false by lia. reflexivity.
  - unfold lower_char. replace (c <? 128) with true by lia. replace ((65 <=? c) && (c <=? 90)) with false by lia. reflexivity.
  - assert (S : forallb (fun c => seqb (lower_char c) [c]) (enum space_ranges) = true) by (vm_compute; reflexivity).
    rewrite forallb_forall in S. apply seqb_eq. apply S. exact H1.
Qed.

Lemma lower_blanks w : blanks w -> lower w = w.
Proof.
  intros H. unfold lower. apply flat_map_id_on. intros c Hc. apply lower_char_blank.
  apply (proj1 (Forall_forall _ _) H c Hc).
Qed.

Lemma lower_cons c s : lower (c :: s) = lower_char c ++ lower s. Proof. reflexivity. Qed.

Lemma dotted_lower v : dotted v -> dotted (lower v).
Proof.
  intros (w & r & -> & H). exists w, (lower r). split; [|exact H].
  rewrite lower_app, (lower_blanks w H). reflexivity.
Qed.
Lemma ellipsis_lower v : ellipsis_text v -> ellipsis_text (lower v).
Proof.
  intros (w & -> & H). exists w. split; [|exact H]. rewrite lower_cons, (lower_blanks w H). reflexivity.
Qed.

Lemma lower_304 : lower_char 304 = [105; 775]. Proof. vm_compute. reflexivity. Qed.

Lemma lower_identifier v :
  identifier_nl v -> ~ In 10 (lower v) -> ~ In 775 (lower v) -> identifier (lower v).
Proof.
  intros (c & r & nl & -> & H1 & H2 & H3) N10 N775.
  assert (nl = []).
  { destruct H3 as [H3 | ->]; [exact H3|]. exfalso. apply N10.
    rewrite lower_cons, lower_app. apply in_or_app. right. apply in_or_app. right. left. reflexivity. }
  subst nl. rewrite app_nil_r in *. rewrite lower_cons in *.
  assert (E : exists d, lower_char c = [d] /\ ascii_letter_char d = true).
  { unfold lower_char, ascii_letter_char in *. replace (c <? 128) with true by lia.
    destruct ((65 <=? c) && (c <=? 90)) eqn:E; eexists; (split; [reflexivity|]); lia. }
  destruct E as (d & E & Hd). rewrite E in *. cbn [app] in *. exists d, (lower r). split; [reflexivity|]. split; [exact Hd|].
  apply Forall_forall. intros e He. unfold lower in He. apply in_flat_map in He as (y & Hy & He).
  apply (lower_char_word y e); [apply (proj1 (Forall_forall _ _) H2 y Hy) | | exact He].
  intros ->. apply N775. right. unfold lower. apply in_flat_map. exists 304. split; [exact Hy|].
  rewrite lower_304. right. left. reflexivity.
Qed.

Lemma word_ascii c : isword c = true -> c < 128 ->
  (48 <= c <= 57) \/ (65 <= c <= 90) \/ (97 <= c <= 122) \/ c = 95.
Proof. unfold isword, isalnum. intros H L. replace (c <? 128) with true in H by lia. lia. Qed.

Lemma lower_no_upper s d : In d (lower s) -> d < 128 -> ~ (65 <= d <= 90).
Proof.
  intros H L Hd. unfold lower in H. apply in_flat_map in H as (c & _ & H).
  apply lower_char_idem in H. unfold lower_char in H. replace (d <? 128) with true in H by lia.
  replace ((65 <=? d) && (d <=? 90)) with true in H by lia. injection H. lia.
Qed.

Lemma identifier_ascii v :
  identifier (lower v) -> (forall c, In c (lower v) -> c < 128) -> c_identifier (lower v).
Proof.
  intros (c & r & E & H1 & H2) A. exists c, r. split; [exact E|].
  assert (U : forall d, In d (lower v) -> ~ (65 <= d <= 90)) by (intros d Hd; apply (lower_no_upper v d Hd (A d Hd))).
  rewrite E in A, U. split.
  - specialize (U c (or_introl eq_refl)). unfold ascii_letter_char, c_lower in *. lia.
  - apply Forall_forall. intros d Hd.
    pose proof (proj1 (Forall_forall _ _) H2 d Hd) as W. specialize (U d (or_intror Hd)).
    destruct (word_ascii d W (A d (or_intror Hd))) as [? | [? | [? | ?]]]; unfold c_ident_char, c_lower; lia.
Qed.

Lemma parse_label_clean x s key f l f' evs :
  x_fig x <> [] ->
  parse_label x s key f = (Ok l, f', evs) ->
  (forall e, In (EvLint e) evs -> l_code e <> L1004) ->
  exists v, l = lower v /\ valid_label v.
Proof.
  intros Hx H Hno. destruct (extract_total x s key f Hx) as (l0 & t & E).
  destruct (parse_label_of x s key f l0 t Hx E) as (evs' & P & C).
  rewrite P in H. injection H as <- <- <-. exists (normalize_label l0). split; [reflexivity|].
  destruct C as [[V _] | [_ ->]]; [exact V|]. exfalso.
  apply (Hno (mkLint L1004 (x_fig x) (code_msg L1004) (Some key) [(utf8 "label", JStr (normalize_label l0))])); [|reflexivity].
  apply in_or_app. right. left. reflexivity.
Qed.

(** ** Value labels *)
Lemma value_text_split s name : value_text s name <-> take_while vname_char s = name.
Proof.
  split.
  - intros (rest & -> & H1 & H2). apply take_while_unique; [apply all_forallb; exact H1 | apply stops_not_begins; exact H2].
  - intros <-. exists (drop_while vname_char s). split; [symmetry; apply take_drop|].
    split; [apply all_forallb, take_while_all | apply stops_not_begins, drop_while_stops].
Qed.

Lemma value_group s name : value_text s name ->
  grp_nonempty G_label (re_match VALUE_LABEL_REGEX s) = match name with [] => None | _ => Some name end.
Proof.
  intros H. apply value_text_split in H. unfold grp_nonempty.
  rewrite VALUE_LABEL_REGEX_spec. unfold value_split.
  change (take_while value_label_char s) with (take_while vname_char s). rewrite H.
  destruct (skip1 58 _); cbn; destruct name; reflexivity.
Qed.

Lemma finish_value x l key f : x_fig x <> [] ->
  let l' := normalize_label (rearrange_num_label l) in
  exists evs, finish_value_label x l key f = (Ok l', f, evs) /\ label_check x key l' evs.
Proof.
  intros Hx l'. destruct (label_check_exists x key l' f Hx) as (evs & E & C).
  exists evs. split; [|exact C]. unfold finish_value_label, bind. fold l'. rewrite E. cbn. rewrite app_nil_r. reflexivity.
Qed.

(** Moving a leading number to the end. *)
Lemma rearrange_spec d rest line after :
  numeral d -> ~ begins isdigit rest -> rest = line ++ after -> ~ In 10 line ->
  (after = [] \/ begins (is_char 10) after) ->
  rearrange_num_label (d ++ rest) = strip_by (N.eqb 95) (strip_by (N.eqb 95) line ++ [95] ++ d).
Proof.
  intros [Hd Ha] Hr E Hl Haf. unfold rearrange_num_label.
  rewrite LABEL_NUMERICAL_REARRANGE_REGEX_spec. unfold num_split.
  apply all_forallb in Ha. apply stops_not_begins in Hr.
  rewrite take_while_unique, drop_while_unique by assumption.
  assert (T : take_while not_nl rest = line).
  { rewrite E. apply take_while_unique.
    - rewrite forallb_forall. intros c Hc. unfold not_nl. apply negb_true_iff, N.eqb_neq. intros ->. contradiction.
    - destruct Haf as [-> | (c & r & -> & H)]; [exact I|]. cbn. unfold not_nl, is_char in *. rewrite H. reflexivity. }
  destruct d as [|c d]; [congruence|]. rewrite T. reflexivity.
Qed.

Lemma rearrange_none s : ~ begins isdigit s -> rearrange_num_label s = s.
Proof.
  intros H. unfold rearrange_num_label. rewrite LABEL_NUMERICAL_REARRANGE_REGEX_spec. unfold num_split.
  apply stops_not_begins in H. rewrite take_while_stop by exact H. reflexivity.
Qed.
