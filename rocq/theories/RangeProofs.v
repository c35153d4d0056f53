(** How range cells are read (proofs for Prop_Range.v). *)
From Coq Require Import NArith ZArith List Bool String DecimalN Lia ZifyBool ZifyN.
From Verif Require Import PyStr PyStrFacts Regex Regexes RegexFacts Xml Json Lint RowIter
  Helpers Extract MFacts SpecText.
Import ListNotations.
Local Open Scope list_scope.
Local Open Scope N_scope.
Local Open Scope m_scope.

Lemma all_forallb p s : all p s <-> forallb p s = true.
Proof. unfold all. rewrite Forall_forall, forallb_forall. reflexivity. Qed.

Lemma not_begins p s : ~ begins p s <-> stops p s.
Proof.
  unfold begins. destruct s as [|c r]; cbn; split; auto.
  - intros _ (c & r & H & _). discriminate.
  - intros H. destruct (p c) eqn:E; [|reflexivity]. exfalso. apply H. eauto.
  - intros H (c' & r' & [= <- <-] & H2). congruence.
Qed.

Lemma take_nonempty p s : s <> [] -> all p s -> forall t, ~ begins p t -> take_while p (s ++ t) = s.
Proof. intros _ H t Ht. apply take_while_unique; [apply all_forallb, H | apply not_begins, Ht]. Qed.

(** ** Decimal values *)
Lemma digits_val_acc s acc :
  fold_left (fun acc c => acc * 10 + match digit_val c with Some d => d | None => 0 end) s acc
  = acc * 10 ^ N.of_nat (List.length s) + dec_value s.
Proof.
  revert acc; induction s as [|c s IH]; intros acc.
  - cbn. lia.
  - cbn [fold_left dec_value List.length]. rewrite IH, Nat2N.inj_succ, N.pow_succ_r'.
    unfold digit. set (d := match digit_val c with Some d => d | None => 0 end). lia.
Qed.

Lemma digits_val_dec s : digits_val s = dec_value s.
Proof. unfold digits_val. rewrite digits_val_acc. lia. Qed.

Lemma py_int_numeral s :
  numeral s -> convertible s -> py_int s = Some (Z.of_N (dec_value s)).
Proof.
  intros [Hn Hd] Hc. rewrite py_int_digits; [|apply all_forallb; exact Hd | exact Hn].
  unfold convertible in Hc. unfold int_max_digits.
  replace (_ <=? _) with true by lia. rewrite digits_val_dec. reflexivity.
Qed.

Lemma py_int_too_long s : numeral s -> ~ convertible s -> py_int s = None.
Proof.
  intros [Hn Hd] Hc. rewrite py_int_digits; [|apply all_forallb; exact Hd | exact Hn].
  unfold convertible in Hc. unfold int_max_digits.
  replace (_ <=? _) with false by lia. reflexivity.
Qed.

(** ** The pattern *)
Lemma range_split_two t hi lo : two_numbers t hi lo -> range_split t = Some (hi, Some lo).
Proof.
  intros [hi' ws1 ws2 lo' rest [Hn Hd] Hw1 Hw2 [Hn2 Hd2] Hr].
  apply all_forallb in Hd, Hw1, Hw2, Hd2. apply not_begins in Hr.
  assert (S1 : stops isdigit (ws1 ++ [58] ++ ws2 ++ lo' ++ rest)).
  { destruct ws1 as [|w ws1]; cbn; [reflexivity|].
    cbn in Hw1. apply andb_true_iff in Hw1 as [Hw1 _]. apply isspace_not_digit. exact Hw1. }
  unfold range_split.
  rewrite (take_while_unique _ _ _ Hd S1), (drop_while_unique _ _ _ Hd S1).
  destruct hi' as [|h0 h]; [congruence|].
  rewrite (drop_while_unique isspace ws1 _ Hw1) by reflexivity.
  cbn [app]. rewrite N.eqb_refl.
  assert (S2 : stops isspace (lo' ++ rest)).
  { destruct lo' as [|l0 l]; [congruence|]. cbn. cbn in Hd2. apply andb_true_iff in Hd2 as [Hd2 _].
    apply isdigit_not_space. exact Hd2. }
  rewrite (drop_while_unique isspace ws2 _ Hw2 S2).
  rewrite (take_while_unique isdigit lo' _ Hd2 Hr).
  destruct lo' as [|l0 l]; [congruence | reflexivity].
Qed.

Lemma range_split_one t hi : one_number t hi -> range_split t = Some (hi, None).
Proof.
  intros [hi' rest [Hn Hd] Hr Hx]. apply all_forallb in Hd.
  pose proof Hr as Hr'. apply not_begins in Hr'.
  unfold range_split. rewrite (take_while_unique _ _ _ Hd Hr'), (drop_while_unique _ _ _ Hd Hr').
  destruct hi' as [|h0 h]; [congruence|]. f_equal. f_equal.
  destruct (drop_while isspace rest) as [|c r] eqn:D; [reflexivity|].
  destruct (c =? 58) eqn:E; [|reflexivity]. apply N.eqb_eq in E. subst c.
  destruct (take_while isdigit (drop_while isspace r)) as [|l0 l] eqn:L; [reflexivity|].
  exfalso. apply Hx.
  exists (take_while isspace rest), (take_while isspace r), (drop_while isspace r).
  split; [|split; [|split]].
  - cbn [app]. rewrite take_drop, <- D, take_drop. reflexivity.
  - apply all_forallb, take_while_all.
  - apply all_forallb, take_while_all.
  - destruct (drop_while isspace r) as [|y u]; [discriminate|].
    exists y, u. split; [reflexivity|]. cbn in L. destruct (isdigit y); [reflexivity | discriminate].
Qed.

Lemma range_split_none t : ~ begins isdigit t -> range_split t = None.
Proof.
  intros H. apply not_begins in H. unfold range_split. rewrite take_while_stop by exact H. reflexivity.
Qed.

(** Every text is of exactly one of the three forms. *)
Lemma range_forms t :
  (exists hi lo, two_numbers t hi lo) \/ (exists hi, one_number t hi) \/ ~ begins isdigit t.
Proof.
  destruct (take_while isdigit t) as [|h0 h] eqn:T.
  { right; right. apply not_begins, take_while_nil, T. }
  assert (Hhi : numeral (take_while isdigit t)).
  { split; [congruence|]. apply all_forallb, take_while_all. }
  set (r := drop_while isdigit t).
  assert (Hr : ~ begins isdigit r) by apply not_begins, drop_while_stops.
  assert (Et : t = take_while isdigit t ++ r) by (symmetry; apply take_drop).
  destruct (drop_while isspace r) as [|c r2] eqn:D.
  - right; left. exists (take_while isdigit t). rewrite Et at 1. constructor; [exact Hhi | exact Hr|].
    intros (ws1 & ws2 & u & E & Hw1 & _). apply all_forallb in Hw1.
    rewrite E, (drop_while_unique isspace ws1 _ Hw1) in D by reflexivity. discriminate.
  - destruct (c =? 58) eqn:E58.
    + apply N.eqb_eq in E58. subst c.
      destruct (take_while isdigit (drop_while isspace r2)) as [|l0 l] eqn:L.
      * right; left. exists (take_while isdigit t). rewrite Et at 1. constructor; [exact Hhi | exact Hr|].
        intros (ws1 & ws2 & u & E & Hw1 & Hw2 & Hu). apply all_forallb in Hw1, Hw2.
        rewrite E, (drop_while_unique isspace ws1 _ Hw1) in D by reflexivity. cbn in D.
        injection D as D. subst r2.
        destruct Hu as (y & u' & -> & Hy).
        rewrite (drop_while_unique isspace ws2 _ Hw2) in L by (cbn; apply isdigit_not_space; exact Hy).
        cbn in L. rewrite Hy in L. discriminate.
      * left. exists (take_while isdigit t), (take_while isdigit (drop_while isspace r2)).
        assert (E : t = take_while isdigit t ++ take_while isspace r ++ [58] ++ take_while isspace r2
                        ++ take_while isdigit (drop_while isspace r2)
                        ++ drop_while isdigit (drop_while isspace r2)).
        { cbn [app]. rewrite take_drop, take_drop, <- D, take_drop. exact Et. }
        rewrite E at 1. constructor; [exact Hhi | | | |].
        -- apply all_forallb, take_while_all.
        -- apply all_forallb, take_while_all.
        -- split; [congruence | apply all_forallb, take_while_all].
        -- apply not_begins, drop_while_stops.
    + right; left. exists (take_while isdigit t). rewrite Et at 1. constructor; [exact Hhi | exact Hr|].
      intros (ws1 & ws2 & u & E & Hw1 & _). apply all_forallb in Hw1.
      rewrite E, (drop_while_unique isspace ws1 _ Hw1) in D by reflexivity. cbn in D.
      injection D as D _. subst c. discriminate.
Qed.

Lemma two_numbers_begins t hi lo : two_numbers t hi lo -> begins isdigit t.
Proof.
  intros [hi' ws1 ws2 lo' rest [Hn Hd] _ _ _ _]. destruct hi' as [|c r]; [congruence|].
  inversion Hd; subst. cbn. exists c. eauto.
Qed.
Lemma one_number_begins t hi : one_number t hi -> begins isdigit t.
Proof.
  intros [hi' rest [Hn Hd] _ _]. destruct hi' as [|c r]; [congruence|].
  inversion Hd; subst. cbn. exists c. eauto.
Qed.

(** ** parse_range *)
Section PR.
Variable x : xctx.
Hypothesis Hfig : x_fig x <> [].

Definition r1001 (key : str) : event :=
  EvLint (mkLint R1001 (x_fig x) (code_msg R1001) (Some key) []).
Definition r1002 (key : str) : event :=
  EvLint (mkLint R1002 (x_fig x) (code_msg R1002) (Some key) []).

Lemma parse_range_text t key f :
  ~ begins isdigit t -> parse_range x t key f = (Ok (RText t), f, [r1001 key]).
Proof.
  intros H. unfold parse_range. rewrite RANGE_REGEX_spec, (range_split_none t H).
  unfold issue. erewrite bind_ok by (apply add_issue_row; exact Hfig). reflexivity.
Qed.

Lemma parse_range_two t hi lo key f :
  two_numbers t hi lo -> convertible hi -> convertible lo ->
  parse_range x t key f
  = (Ok (RInt (Z.of_N (dec_value lo)) (Z.of_N (dec_value hi))), f,
     if dec_value hi <? dec_value lo then [r1002 key] else []).
Proof.
  intros H Ch Cl. unfold parse_range. rewrite RANGE_REGEX_spec, (range_split_two t hi lo H).
  destruct H as [hi ws1 ws2 lo rest Nh _ _ Nl _].
  change (group G_high [(G_low, lo); (G_high, hi)]) with (Some hi).
  change (group G_low [(G_low, lo); (G_high, hi)]) with (Some lo).
  cbv iota. rewrite (py_int_numeral hi Nh Ch), (py_int_numeral lo Nl Cl).
  destruct (dec_value hi <? dec_value lo) eqn:E.
  - replace (Z.of_N (dec_value hi) <? Z.of_N (dec_value lo))%Z with true by lia.
    unfold issue. erewrite bind_ok by (apply add_issue_row; exact Hfig). reflexivity.
  - replace (Z.of_N (dec_value hi) <? Z.of_N (dec_value lo))%Z with false by lia.
    rewrite bind_ret. reflexivity.
Qed.

Lemma parse_range_one t hi key f :
  one_number t hi -> convertible hi ->
  parse_range x t key f
  = (Ok (RInt (Z.of_N (dec_value hi)) (Z.of_N (dec_value hi))), f, []).
Proof.
  intros H Ch. unfold parse_range. rewrite RANGE_REGEX_spec, (range_split_one t hi H).
  destruct H as [hi rest Nh _ _].
  change (group G_high [(G_high, hi)]) with (Some hi).
  change (group G_low [(G_high, hi)]) with (@None str).
  cbv iota. rewrite (py_int_numeral hi Nh Ch).
  rewrite Z.ltb_irrefl. rewrite bind_ret. reflexivity.
Qed.

Lemma parse_range_two_long t hi lo key f :
  two_numbers t hi lo -> ~ (convertible hi /\ convertible lo) ->
  parse_range x t key f = (Exn EValueError, f, []).
Proof.
  intros H C. unfold parse_range. rewrite RANGE_REGEX_spec, (range_split_two t hi lo H).
  destruct H as [hi ws1 ws2 lo rest Nh _ _ Nl _].
  change (group G_high [(G_low, lo); (G_high, hi)]) with (Some hi).
  change (group G_low [(G_low, lo); (G_high, hi)]) with (Some lo).
  cbv iota. assert (D : convertible hi \/ ~ convertible hi) by (unfold convertible; lia).
  destruct D as [D | D].
  - rewrite (py_int_numeral hi Nh D). rewrite (py_int_too_long lo Nl) by tauto. reflexivity.
  - rewrite (py_int_too_long hi Nh D). reflexivity.
Qed.

Lemma parse_range_one_long t hi key f :
  one_number t hi -> ~ convertible hi -> parse_range x t key f = (Exn EValueError, f, []).
Proof.
  intros H C. unfold parse_range. rewrite RANGE_REGEX_spec, (range_split_one t hi H).
  destruct H as [hi rest Nh _ _].
  change (group G_high [(G_high, hi)]) with (Some hi).
  cbv iota. rewrite (py_int_too_long hi Nh C). reflexivity.
Qed.
End PR.

(** ** str(n) for numbers *)
Lemma uint_str_digits d : forallb isdigit (uint_str d) = true.
Proof. induction d; cbn [uint_str forallb]; try (rewrite IHd); reflexivity. Qed.

Lemma str_of_N_digits n : all isdigit (str_of_N n).
Proof. apply all_forallb, uint_str_digits. Qed.

Definition horner (acc c : N) : N :=
  acc * 10 + match digit_val c with Some d => d | None => 0 end.

Lemma horner_uint_acc d p : fold_left horner (uint_str d) (Npos p) = Npos (Pos.of_uint_acc d p).
Proof.
  revert p; induction d; intros p; [reflexivity | ..];
    cbn [uint_str fold_left Pos.of_uint_acc];
    (erewrite <- IHd; f_equal; unfold horner;
     match goal with |- context [digit_val ?c] =>
       let v := eval vm_compute in (digit_val c) in change (digit_val c) with v end;
     cbv iota; lia).
Qed.

Lemma horner_uint d : fold_left horner (uint_str d) 0 = N.of_uint d.
Proof.
  induction d; [reflexivity | exact IHd | ..]; exact (horner_uint_acc d _).
Qed.

Lemma str_of_N_value n : dec_value (str_of_N n) = n.
Proof.
  rewrite <- digits_val_dec. unfold digits_val, str_of_N. change (fold_left horner (uint_str (N.to_uint n)) 0 = n).
  rewrite horner_uint. apply DecimalN.Unsigned.of_to.
Qed.

Lemma str_of_N_nonempty n : str_of_N n <> [].
Proof.
  intros E. pose proof (str_of_N_value n) as H. rewrite E in H. cbn in H. subst n. discriminate.
Qed.

Lemma str_of_N_numeral n : numeral (str_of_N n).
Proof. split; [apply str_of_N_nonempty | apply str_of_N_digits]. Qed.

Lemma str_of_N_inj a b : str_of_N a = str_of_N b -> a = b.
Proof. intros H. rewrite <- (str_of_N_value a), H. apply str_of_N_value. Qed.

(** ** Dynamic ranges *)

(** A character of the dynamic range alphabet: letters, digits, + - * ( ) and blanks. *)
Lemma dyn_split_some t a b rest :
  a <> [] -> all dyn_char a -> b <> [] -> all dyn_char b -> ~ begins dyn_char rest ->
  t = a ++ [58] ++ b ++ rest -> dyn_split t = Some (a, b).
Proof.
  intros Na Ha Nb Hb Hr ->. apply all_forallb in Ha, Hb. apply not_begins in Hr.
  unfold dyn_split.
  rewrite (take_while_unique dyn_char a _ Ha) by reflexivity.
  rewrite (drop_while_unique dyn_char a _ Ha) by reflexivity.
  destruct a as [|a0 a]; [congruence|]. cbn [app]. rewrite N.eqb_refl.
  rewrite (take_while_unique dyn_char b _ Hb Hr).
  destruct b; [congruence | reflexivity].
Qed.

Lemma dyn_split_inv t a b :
  dyn_split t = Some (a, b) ->
  a <> [] /\ all dyn_char a /\ b <> [] /\ all dyn_char b /\
  exists rest, t = a ++ [58] ++ b ++ rest /\ ~ begins dyn_char rest.
Proof.
  unfold dyn_split. destruct (take_while dyn_char t) as [|a0 a'] eqn:T; [discriminate|].
  destruct (drop_while dyn_char t) as [|c r] eqn:D; [discriminate|].
  destruct (c =? 58) eqn:E; [|discriminate]. apply N.eqb_eq in E. subst c.
  destruct (take_while dyn_char r) as [|b0 b'] eqn:L; [discriminate|]. intros [= <- <-].
  split; [discriminate|]. split; [rewrite <- T; apply all_forallb, take_while_all|].
  split; [discriminate|]. split; [rewrite <- L; apply all_forallb, take_while_all|].
  exists (drop_while dyn_char r). split.
  - rewrite <- T, <- L. cbn [app]. rewrite take_drop, <- D, take_drop. reflexivity.
  - apply not_begins, drop_while_stops.
Qed.

Lemma replace_char_nil c s : replace_char c [] s = filter (fun y => negb (y =? c)) s.
Proof.
  induction s as [|y s IH]; [reflexivity|]. cbn. destruct (y =? c); cbn; rewrite <- IH; reflexivity.
Qed.

Lemma filter_filter {A} (p q : A -> bool) l : filter p (filter q l) = filter (fun y => q y && p y) l.
Proof.
  induction l as [|y l IH]; [reflexivity|]. cbn. destruct (q y); cbn; [destruct (p y)|]; rewrite IH; reflexivity.
Qed.

Lemma filter_ext' {A} (p q : A -> bool) l : (forall y, p y = q y) -> filter p l = filter q l.
Proof. intros H. induction l as [|y l IH]; [reflexivity|]. cbn. rewrite H, IH. reflexivity. Qed.

Lemma dyn_cleaned t :
  replace_char 32 [] (replace_char 10 [] t)
  = filter (fun c => negb ((c =? 32) || (c =? 10))) t.
Proof.
  rewrite !replace_char_nil, filter_filter. apply filter_ext'. intros y.
  destruct (y =? 10), (y =? 32); reflexivity.
Qed.

Lemma parse_dynamic_some x t a b f :
  dyn_split (replace_char 32 [] (replace_char 10 [] t)) = Some (a, b) ->
  parse_dynamic_range x t f = (Ok (RDyn b a), f, []).
Proof.
  intros H. unfold parse_dynamic_range. rewrite DYNAMIC_RANGE_REGEX_spec, H. reflexivity.
Qed.

Lemma parse_dynamic_none x t f :
  x_fig x <> [] ->
  dyn_split (replace_char 32 [] (replace_char 10 [] t)) = None ->
  parse_dynamic_range x t f = (Ok (RText t), f, [r1001 x t]).
Proof.
  intros Hx H. unfold parse_dynamic_range. rewrite DYNAMIC_RANGE_REGEX_spec, H.
  unfold issue. erewrite bind_ok by (apply add_issue_row; exact Hx). reflexivity.
Qed.

Lemma formula_range_split t a b :
  formula_range t a b <-> dyn_split (replace_char 32 [] (replace_char 10 [] t)) = Some (a, b).
Proof.
  rewrite dyn_cleaned. split.
  - intros (Na & Ha & Nb & Hb & rest & E & Hr). eapply dyn_split_some; eassumption.
  - intros H. apply dyn_split_inv in H. exact H.
Qed.

Lemma formula_range_ok x t a b f :
  formula_range t a b -> parse_dynamic_range x t f = (Ok (RDyn b a), f, []).
Proof. intros H. apply parse_dynamic_some, formula_range_split, H. Qed.

Lemma formula_range_none x t f :
  x_fig x <> [] -> (forall a b, ~ formula_range t a b) ->
  parse_dynamic_range x t f = (Ok (RText t), f, [r1001 x t]).
Proof.
  intros Hx H. apply parse_dynamic_none; [exact Hx|].
  destruct (dyn_split _) as [[a b]|] eqn:E; [|reflexivity].
  exfalso. apply (H a b). apply formula_range_split. exact E.
Qed.

Lemma two_numbers_fun t hi lo hi' lo' :
  two_numbers t hi lo -> two_numbers t hi' lo' -> hi = hi' /\ lo = lo'.
Proof.
  intros H1 H2. apply range_split_two in H1, H2. rewrite H1 in H2. injection H2. auto.
Qed.

Lemma reversed_iff x txt key f :
  x_fig x <> [] ->
  let '(out, _, evs) := parse_range x txt key f in
  ((exists e, In (EvLint e) evs /\ l_code e = R1002) <->
   (exists hi lo, two_numbers txt hi lo /\ convertible hi /\ convertible lo
                  /\ dec_value hi < dec_value lo))
  /\ (forall hi lo, two_numbers txt hi lo -> convertible hi -> convertible lo ->
      dec_value hi < dec_value lo ->
      out = Ok (RInt (Z.of_N (dec_value lo)) (Z.of_N (dec_value hi)))
      /\ evs = [r1002 x key]).
Proof.
  intros Hx.
  destruct (range_forms txt) as [(hi & lo & H) | [(hi & H) | H]].
  - assert (D : (convertible hi /\ convertible lo) \/ ~ (convertible hi /\ convertible lo))
      by (unfold convertible; lia).
    destruct D as [[Ch Cl] | D].
    + rewrite (parse_range_two x Hx txt hi lo key f H Ch Cl). split; [split|].
      * intros (e & He & Hc). exists hi, lo. repeat split; auto.
        destruct (dec_value hi <? dec_value lo) eqn:E; [apply N.ltb_lt; exact E | destruct He].
      * intros (hi' & lo' & H' & _ & _ & L). destruct (two_numbers_fun _ _ _ _ _ H H') as [<- <-].
        apply N.ltb_lt in L. rewrite L. eexists. split; [left; reflexivity | reflexivity].
      * intros hi' lo' H' _ _ L. destruct (two_numbers_fun _ _ _ _ _ H H') as [<- <-].
        apply N.ltb_lt in L. rewrite L. auto.
    + rewrite (parse_range_two_long x txt hi lo key f H D). split; [split|].
      * intros (e & [] & _).
      * intros (hi' & lo' & H' & C1 & C2 & _). destruct (two_numbers_fun _ _ _ _ _ H H') as [<- <-]. tauto.
      * intros hi' lo' H' C1 C2 _. destruct (two_numbers_fun _ _ _ _ _ H H') as [<- <-]. tauto.
  - assert (N2 : forall hi' lo', ~ two_numbers txt hi' lo').
    { intros hi' lo' H'. apply range_split_one in H. apply range_split_two in H'. congruence. }
    assert (E : let '(_, _, evs) := parse_range x txt key f in evs = []).
    { assert (D : convertible hi \/ ~ convertible hi) by (unfold convertible; lia).
      destruct D as [D | D].
      - rewrite (parse_range_one x txt hi key f H D). reflexivity.
      - rewrite (parse_range_one_long x txt hi key f H D). reflexivity. }
    destruct (parse_range x txt key f) as [[out g] evs]. subst evs. split; [split|].
    + intros (e & [] & _).
    + intros (hi' & lo' & H' & _). destruct (N2 _ _ H').
    + intros hi' lo' H'. destruct (N2 _ _ H').
  - rewrite (parse_range_text x Hx txt key f H). split; [split|].
    + intros (e & [E | []] & Hc). injection E as <-. discriminate.
    + intros (hi' & lo' & H' & _). apply two_numbers_begins in H'. tauto.
    + intros hi' lo' H'. apply two_numbers_begins in H'. tauto.
Qed.
