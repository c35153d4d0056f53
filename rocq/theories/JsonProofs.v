(** The JSON writer and reader against the grammar of SpecJson.v. *)
From Coq Require Import NArith ZArith List Bool String Lia ZifyBool ZifyN ZifyNat.
From Coq Require DecimalFacts DecimalPos DecimalN.
From Verif Require Import PyStr PyStrFacts Json Output JsonText SpecJson.
Import ListNotations.
Local Open Scope list_scope.
Local Open Scope N_scope.

(** Induction on values. *)
Section JsonInd.
Variable P : json -> Prop.
Hypothesis (Hn : P JNull) (Hb : forall b, P (JBool b)) (Hi : forall z, P (JInt z)) (Hs : forall s, P (JStr s))
  (Hl : forall l, Forall P l -> P (JList l)) (Ho : forall l, Forall (fun p => P (snd p)) l -> P (JObj l)).
Fixpoint json_rec' (j : json) : P j :=
  match j with
  | JNull => Hn | JBool b => Hb b | JInt z => Hi z | JStr s => Hs s
  | JList l => Hl l ((fix go (l : list json) : Forall P l :=
                        match l with [] => Forall_nil _ | a :: r => Forall_cons _ (json_rec' a) (go r) end) l)
  | JObj l => Ho l ((fix go (l : list (str * json)) : Forall (fun p => P (snd p)) l :=
                       match l with [] => Forall_nil _ | a :: r => Forall_cons _ (json_rec' (snd a)) (go r) end) l)
  end.
End JsonInd.

(** ** Characters *)

Lemma short_escape_in c e : short_escape c = Some e -> In (e, c) escapes.
Proof.
  unfold short_escape, escapes.
  repeat match goal with |- (if ?x =? ?y then _ else _) = _ -> _ =>
    destruct (N.eqb_spec x y); [intros Q; injection Q as <-; subst; cbn; tauto|] end.
  discriminate.
Qed.
Lemma short_escape_none c : short_escape c = None -> c <> 34 /\ c <> 92.
Proof.
  unfold short_escape.
  repeat match goal with |- (if ?x =? ?y then _ else _) = _ -> _ => destruct (N.eqb_spec x y); [discriminate|] end.
  auto.
Qed.
Lemma hexdigit_of n : n < 16 -> hexdigit (hex_digit n) n.
Proof. unfold hexdigit, hex_digit. destruct (N.ltb_spec n 10); lia. Qed.
Lemma hex4_ok n : n < 65536 -> hex16 (hex4 n) n.
Proof.
  intros H. unfold hex16, hex4. do 8 eexists. split; [reflexivity|].
  assert (n / 4096 < 16) by (apply N.div_lt_upper_bound; lia).
  pose proof (N.mod_lt (n / 256) 16). pose proof (N.mod_lt (n / 16) 16). pose proof (N.mod_lt n 16).
  repeat (split; [apply hexdigit_of; lia|]).
  pose proof (N.div_mod n 16). pose proof (N.div_mod (n / 16) 16). pose proof (N.div_mod (n / 256) 16).
  assert (E1 : n / 16 / 16 = n / 256) by (rewrite N.div_div by lia; reflexivity).
  assert (E2 : n / 256 / 16 = n / 4096) by (rewrite N.div_div by lia; reflexivity).
  lia.
Qed.
Lemma enc_char_jchars s : jchars (flat_map enc_char s) s.
Proof.
  induction s as [|c s IH]; [constructor|]. cbn [flat_map]. unfold enc_char at 1.
  destruct (short_escape c) as [e|] eqn:E.
  - apply (jc_escape e c); [apply short_escape_in, E | exact IH].
  - apply short_escape_none in E as [E1 E2]. destruct (N.ltb_spec c 32).
    + apply (jc_unicode (hex4 c) c); [apply hex4_ok; lia | | exact IH]. intros [[Q1 Q2] _]. lia.
    + apply jc_plain; [lia | assumption.. | exact IH].
Qed.
(** A character of Unicode that is not a surrogate. *)
Definition scalar (c : N) : Prop := c < 1114112 /\ ~ (55296 <= c <= 57343).
Lemma enc_char_ascii_jchars s : Forall scalar s -> jchars (flat_map enc_char_ascii s) s.
Proof.
  induction 1 as [|c s [S1 S2] F IH]; [constructor|]. cbn [flat_map]. unfold enc_char_ascii at 1.
  destruct (short_escape c) as [e|] eqn:E.
  - apply (jc_escape e c); [apply short_escape_in, E | exact IH].
  - apply short_escape_none in E as [E1 E2]. destruct ((32 <=? c) && (c <=? 126)) eqn:P.
    + apply jc_plain; [lia | assumption.. | exact IH].
    + destruct (N.ltb_spec c 65536).
      * apply (jc_unicode (hex4 c) c); [apply hex4_ok; lia | | exact IH]. intros [[Q1 Q2] _]. lia.
      * cbn zeta. remember (c - 65536) as n eqn:EN.
        assert (B1 : n / 1024 < 1024) by (apply N.div_lt_upper_bound; lia).
        pose proof (N.mod_lt n 1024) as B2. rewrite (N.mod_small (n / 1024)) by exact B1.
        assert (c = 65536 + 1024 * (55296 + n / 1024 - 55296) + (56320 + n mod 1024 - 56320)) as EC.
        { pose proof (N.div_mod n 1024). lia. }
        rewrite EC. unfold u_escape. cbn [app]. rewrite <- app_assoc. cbn [app].
        apply jc_pair; [apply hex4_ok; lia | unfold high_surrogate; lia | apply hex4_ok; lia | unfold low_surrogate; lia | exact IH].
Qed.

(** ** White space and numbers *)

Lemma is_ws_iff c : is_ws c = true <-> In c [32; 9; 10; 13].
Proof. unfold is_ws. cbn [In]. rewrite !orb_true_iff, !N.eqb_eq. intuition. Qed.
Lemma skip_ws_app a r : ws a -> skip_ws (a ++ r) = skip_ws r.
Proof. unfold skip_ws. induction 1 as [|c a H F IH]; [reflexivity|]. cbn [app drop_while]. rewrite (proj2 (is_ws_iff c) H). exact IH. Qed.
Lemma skip_ws_stop c r : is_ws c = false -> skip_ws (c :: r) = c :: r.
Proof. unfold skip_ws. cbn [drop_while]. intros ->. reflexivity. Qed.

Lemma uint_digits d : Forall (fun c => 48 <= c <= 57) (uint_str d).
Proof. induction d; cbn [uint_str]; constructor; try assumption; lia. Qed.
Definition jdec (n c : N) : N := 10 * n + (c - 48).
Lemma jdec_acc d p : fold_left jdec (uint_str d) (Npos p) = Npos (Pos.of_uint_acc d p).
Proof.
  revert p; induction d; intros p; [reflexivity | ..];
    cbn [uint_str fold_left Pos.of_uint_acc]; erewrite <- IHd; f_equal; unfold jdec; lia.
Qed.
Lemma jdec_uint d : fold_left jdec (uint_str d) 0 = N.of_uint d.
Proof. induction d; [reflexivity | exact IHd | ..]; exact (jdec_acc d _). Qed.
Lemma no_leading_zero n d : N.to_uint n = Decimal.D0 d -> d = Decimal.Nil.
Proof.
  intros E. assert (U : Decimal.unorm (N.to_uint n) = N.to_uint n)
    by (rewrite <- DecimalN.Unsigned.to_of, DecimalN.Unsigned.of_to; reflexivity).
  rewrite E in U. unfold Decimal.unorm in U.
  destruct (Decimal.nzhead (Decimal.D0 d)) eqn:Z; try discriminate.
  - injection U as <-. reflexivity.
  - exfalso. exact (DecimalFacts.nzhead_nonzero _ _ Z).
Qed.
Lemma str_of_N_jnat n : jnat (str_of_N n) n.
Proof.
  unfold jnat. split; [|split; [|split]].
  - unfold str_of_N. intros E. destruct (N.to_uint n) eqn:U; try discriminate.
    destruct n as [|p]; [discriminate|]. cbn in U. exact (DecimalPos.Unsigned.to_uint_nonnil _ U).
  - apply uint_digits.
  - intros r E. unfold str_of_N in E. destruct (N.to_uint n) eqn:U; try discriminate E.
    cbn [uint_str] in E. injection E as <-. rewrite (no_leading_zero _ _ U). reflexivity.
  - change (n = fold_left jdec (str_of_N n) 0). unfold str_of_N. rewrite jdec_uint. symmetry. apply DecimalN.Unsigned.of_to.
Qed.
Lemma str_of_Z_jint z : jint (str_of_Z z) z.
Proof.
  destruct z as [|p|p]; cbn [str_of_Z].
  - apply (ji_pos [48] 0). apply (str_of_N_jnat 0).
  - apply (ji_pos _ (Npos p)). apply str_of_N_jnat.
  - apply (ji_neg _ (Npos p)). apply str_of_N_jnat.
Qed.

(** ** What is written is JSON *)

(** Every string in the value, keys included, has the property. *)
Fixpoint strings_in (P : str -> Prop) (j : json) : Prop :=
  match j with
  | JStr s => P s
  | JList l => (fix all (l : list json) := match l with [] => True | a :: r => strings_in P a /\ all r end) l
  | JObj l =>
      (fix all (l : list (str * json)) :=
         match l with [] => True | p :: r => (P (fst p) /\ strings_in P (snd p)) /\ all r end) l
  | _ => True
  end.
Lemma strings_list P l : strings_in P (JList l) <-> Forall (strings_in P) l.
Proof. split; [induction l; intros H; constructor; [apply H | apply IHl, H] | induction 1; cbn; auto]. Qed.
Lemma strings_obj P l : strings_in P (JObj l) <-> Forall (fun p => P (fst p) /\ strings_in P (snd p)) l.
Proof. split; [induction l; intros H; constructor; [apply H | apply IHl, H] | induction 1; cbn; auto]. Qed.

Section Writer.
Variables (enc : N -> str) (nl : nat -> str) (sepw : str) (P : str -> Prop).
Hypothesis (ENC : forall s, P s -> jchars (flat_map enc s) s) (NL : forall n, ws (nl n)) (SEP : ws sepw).
Local Notation sep := (44 :: sepw).

Lemma ws_app a b : ws a -> ws b -> ws (a ++ b).
Proof. intros A B. apply Forall_app. split; assumption. Qed.
Lemma quoted_jstring s : P s -> jstring (quoted enc s) s.
Proof. intros H. apply js_quoted. apply ENC, H. Qed.

Lemma elems_joined (f : json -> str) l a w b : Forall (fun v => jvalue (f v) v) l -> l <> [] -> ws a -> ws w -> ws b ->
  jelems (a ++ join (44 :: w) (map f l) ++ b) l.
Proof.
  intros F. revert a. induction F as [|v l H F IH]; intros a N A W B; [congruence|].
  destruct l as [|v' l]; cbn [map join].
  - apply je_last; assumption.
  - specialize (IH w ltac:(discriminate) W W B).
    change (44 :: w) with ([] ++ 44 :: w). rewrite <- !app_assoc. cbn [app].
    change (w ++ ?x) with (w ++ x). cbn [map join] in IH.
    exact (je_more a (f v) [] v _ (v' :: l) A H (Forall_nil _) IH).
Qed.
Lemma members_joined (f : str * json -> str) l a w b :
  Forall (fun p => exists t, f p = quoted enc (fst p) ++ [58; 32] ++ t /\ P (fst p) /\ jvalue t (snd p)) l ->
  l <> [] -> ws a -> ws w -> ws b -> jmembers (a ++ join (44 :: w) (map f l) ++ b) l.
Proof.
  intros F. revert a. induction F as [|[k v] l (t & E & HP & H) F IH]; intros a N A W B; [congruence|].
  assert (B32 : ws [32]) by (constructor; [cbn; tauto | constructor]).
  cbn [fst snd] in E, HP, H. destruct l as [|v' l]; cbn [map join]; rewrite E.
  - pose proof (jm_last a (quoted enc k) k [] [32] t v b A (quoted_jstring k HP) (Forall_nil _) B32 H B) as J.
    rewrite <- !app_assoc. exact J.
  - specialize (IH w ltac:(discriminate) W W B). cbn [map join] in IH.
    pose proof (jm_more a (quoted enc k) k [] [32] t v [] _ (v' :: l) A (quoted_jstring k HP) (Forall_nil _) B32 H (Forall_nil _) IH) as J.
    rewrite <- !app_assoc. exact J.
Qed.

Lemma dump_jvalue j : strings_in P j -> forall n, jvalue (dump enc nl sep n j) j.
Proof.
  induction j as [|b|z|s|l IH|l IH] using json_rec'; intros H n.
  - apply jv_null.
  - destruct b; [apply jv_true | apply jv_false].
  - apply jv_int, str_of_Z_jint.
  - apply jv_string, quoted_jstring, H.
  - destruct l as [|v l]; [exact (jv_empty [] (Forall_nil _))|]. apply strings_list in H.
    assert (F : Forall (fun v => jvalue (dump enc nl sep (S n) v) v) (v :: l)).
    { apply Forall_forall. intros x IN. rewrite Forall_forall in IH, H. apply IH; auto. }
    pose proof (jv_array _ _ (elems_joined (dump enc nl sep (S n)) (v :: l) (nl (S n)) (sepw ++ nl (S n)) (nl n) F
                  ltac:(discriminate) (NL _) (ws_app _ _ SEP (NL _)) (NL _))) as J.
    cbn [dump]. rewrite <- !app_assoc in J. exact J.
  - destruct l as [|v l]; [exact (jv_no_members [] (Forall_nil _))|]. apply strings_obj in H.
    set (f := fun p : str * json => quoted enc (fst p) ++ utf8 ": " ++ dump enc nl sep (S n) (snd p)).
    assert (F : Forall (fun p => exists t, f p = quoted enc (fst p) ++ [58; 32] ++ t /\ P (fst p) /\ jvalue t (snd p)) (v :: l)).
    { apply Forall_forall. intros x IN. rewrite Forall_forall in IH, H. eexists. split; [reflexivity|].
      split; [apply H, IN | apply IH; [exact IN | apply H, IN]]. }
    pose proof (jv_object _ _ (members_joined f (v :: l) (nl (S n)) (sepw ++ nl (S n)) (nl n) F
                  ltac:(discriminate) (NL _) (ws_app _ _ SEP (NL _)) (NL _))) as J.
    cbn [dump]. rewrite <- !app_assoc in J. exact J.
Qed.
End Writer.

(** ** What is JSON is read *)

Lemma unescape_in e c : In (e, c) escapes -> unescape e = Some c.
Proof. unfold escapes. cbn [In]. intros H. repeat (destruct H as [Q|H]; [injection Q as <- <-; reflexivity|]). destruct H. Qed.
Lemma escape_not_u e c : In (e, c) escapes -> (e =? 117) = false.
Proof. unfold escapes. cbn [In]. intros H. repeat (destruct H as [Q|H]; [injection Q as <- <-; reflexivity|]). destruct H. Qed.
Lemma hexdigit_val c n : hexdigit c n <-> hex_val c = Some n.
Proof.
  unfold hexdigit, hex_val.
  destruct ((48 <=? c) && (c <=? 57)) eqn:A; [split; [intros; f_equal; lia | intros [= <-]; lia]|].
  destruct ((97 <=? c) && (c <=? 102)) eqn:B; [split; [intros; f_equal; lia | intros [= <-]; lia]|].
  destruct ((65 <=? c) && (c <=? 70)) eqn:C; [split; [intros; f_equal; lia | intros [= <-]; lia]|].
  split; [lia | discriminate].
Qed.
Lemma read_hex4_ok h n r : hex16 h n -> read_hex4 (h ++ r) = Some (n, r).
Proof.
  intros (a & b & c & d & a' & b' & c' & d' & -> & A & B & C & D & ->). cbn [app read_hex4].
  apply hexdigit_val in A, B, C, D. rewrite A, B, C, D. reflexivity.
Qed.
Lemma read_hex4_inv s n r : read_hex4 s = Some (n, r) -> exists h, s = h ++ r /\ hex16 h n.
Proof.
  unfold read_hex4. destruct s as [|a [|b [|c [|d s]]]]; try discriminate.
  destruct (hex_val a) as [a'|] eqn:A; [|discriminate]. destruct (hex_val b) as [b'|] eqn:B; [|discriminate].
  destruct (hex_val c) as [c'|] eqn:C; [|discriminate]. destruct (hex_val d) as [d'|] eqn:D; [|discriminate].
  intros Q. injection Q as <- <-. apply hexdigit_val in A, B, C, D.
  exists [a; b; c; d]. split; [reflexivity|]. do 8 eexists. repeat (split; [eauto|]). reflexivity.
Qed.
Lemma hex16_no_quote h n : hex16 h n -> ~ In 34 h.
Proof.
  intros (a & b & c & d & a' & b' & c' & d' & -> & A & B & C & D & ->). unfold hexdigit in *. cbn [In]. lia.
Qed.
(** A prefix without the character [x] of a text where [x] follows [t] is a prefix of [t]. *)
Lemma prefix_before {A} (x : A) t rest p q : t ++ x :: rest = p ++ q -> ~ In x p -> exists t', t = p ++ t'.
Proof.
  revert p. induction t as [|y t IH]; intros p E N.
  - destruct p as [|z p]; [exists []; reflexivity|]. injection E as -> _. exfalso. apply N. left. reflexivity.
  - destruct p as [|z p]; [eexists; reflexivity|]. injection E as -> E. destruct (IH p E) as [t' ->].
    + intros I. apply N. right. exact I.
    + exists t'. reflexivity.
Qed.
Lemma low_escape_none t rest n : high_surrogate n ->
  ~ (high_surrogate n /\ exists h' n' t', t = 92 :: 117 :: h' ++ t' /\ hex16 h' n' /\ low_surrogate n') ->
  low_escape (t ++ 34 :: rest) = None.
Proof.
  intros HN H. destruct (low_escape (t ++ 34 :: rest)) as [[m r]|] eqn:E; [|reflexivity]. exfalso. apply H. split; [exact HN|].
  unfold low_escape in E. destruct (t ++ 34 :: rest) as [|a [|b s]] eqn:T; try discriminate.
  destruct ((a =? 92) && (b =? 117)) eqn:AB; [|discriminate].
  assert (a = 92 /\ b = 117) as [-> ->] by lia.
  destruct (read_hex4 s) as [[m' r']|] eqn:R; [|discriminate]. destruct (is_low m') eqn:L; [|discriminate].
  destruct (read_hex4_inv _ _ _ R) as (h & -> & X).
  destruct (prefix_before 34 t rest (92 :: 117 :: h) r') as [t' ->].
  - exact T.
  - intros [Q|[Q|Q]]; [discriminate | discriminate | exact (hex16_no_quote _ _ X Q)].
  - exists h, m', t'. split; [reflexivity|]. split; [exact X|]. unfold is_low in L. unfold low_surrogate. lia.
Qed.

Lemma read_chars_ok t s : jchars t s -> forall rest fuel, (List.length t < fuel)%nat ->
  read_chars fuel (t ++ 34 :: rest) = Some (s, rest).
Proof.
  induction 1 as [|c t s H1 H2 H3 J IH|e c t s H J IH|h n t s H NP J IH|h n h' n' t s H HN H' LN J IH]; intros rest fuel L.
  - destruct fuel; [cbn in L; lia|]. reflexivity.
  - destruct fuel; [cbn in L; lia|]. cbn [app read_chars]. destruct (N.eqb_spec c 34); [congruence|].
    destruct (N.eqb_spec c 92); [congruence|]. destruct (N.ltb_spec c 32); [lia|].
    rewrite IH by (cbn in L; lia). reflexivity.
  - destruct fuel; [cbn in L; lia|]. cbn [app read_chars]. cbv zeta. change (92 =? 34) with false. change (92 =? 92) with true. cbv iota.
    rewrite (escape_not_u _ _ H), (unescape_in _ _ H), IH by (cbn in L; lia). reflexivity.
  - destruct fuel; [cbn in L; lia|]. cbn [app read_chars]. cbv zeta. change (92 =? 34) with false. change (92 =? 92) with true.
    change (117 =? 117) with true. cbv iota. rewrite <- app_assoc, (read_hex4_ok _ _ _ H).
    assert (Q : (if is_high n then low_escape (t ++ 34 :: rest) else None) = None).
    { destruct (is_high n) eqn:I; [|reflexivity]. apply (low_escape_none t rest n); [|exact NP]. unfold is_high in I. unfold high_surrogate. lia. }
    rewrite Q, IH; [reflexivity|]. cbn [List.length] in L. rewrite app_length in L. lia.
  - destruct fuel; [cbn in L; lia|]. cbn [app read_chars]. cbv zeta. change (92 =? 34) with false. change (92 =? 92) with true.
    change (117 =? 117) with true. cbv iota. rewrite <- app_assoc, (read_hex4_ok _ _ _ H). cbn [app].
    assert (I : is_high n = true) by (unfold is_high; unfold high_surrogate in HN; lia). rewrite I.
    cbn [low_escape]. change ((92 =? 92) && (117 =? 117)) with true. cbv iota. rewrite <- app_assoc, (read_hex4_ok _ _ _ H').
    assert (I' : is_low n' = true) by (unfold is_low; unfold low_surrogate in LN; lia). rewrite I'.
    rewrite IH; [reflexivity|]. cbn [List.length] in L. rewrite app_length in L. cbn [List.length] in L. rewrite app_length in L. lia.
Qed.

(** Numbers. *)
Definition no_digit (rest : str) : Prop := match rest with [] => True | c :: _ => is_dig c = false end.
Lemma digits_span s rest : Forall (fun c => 48 <= c <= 57) s -> no_digit rest ->
  take_while is_dig (s ++ rest) = s /\ drop_while is_dig (s ++ rest) = rest.
Proof.
  intros F N. induction F as [|c s H F [IH1 IH2]]; cbn [app].
  - destruct rest as [|c r]; [split; reflexivity|]. cbn in N. cbn [take_while drop_while]. rewrite N. split; reflexivity.
  - assert (is_dig c = true) as D by (unfold is_dig; lia). cbn [take_while drop_while]. rewrite D, IH1, IH2. split; reflexivity.
Qed.
Lemma read_nat_ok s n rest : jnat s n -> no_digit rest -> read_nat (s ++ rest) = Some (n, rest).
Proof.
  intros (NE & F & Z & ->) N. unfold read_nat. destruct (digits_span s rest F N) as [-> ->].
  destruct s as [|c s]; [congruence|]. destruct ((c =? 48) && negb (seqb s [])) eqn:B; [|reflexivity].
  exfalso. apply andb_true_iff in B as [B1 B2]. apply N.eqb_eq in B1. subst c. rewrite (Z s eq_refl) in B2. discriminate.
Qed.
Lemma read_int_ok s z rest : jint s z -> no_digit rest -> read_int (s ++ rest) = Some (z, rest).
Proof.
  intros [s' n J|s' n J] N.
  - unfold read_int. destruct J as (NE & F & J). destruct s' as [|c s']; [congruence|]. inversion F; subst.
    cbn [app]. destruct (N.eqb_spec c 45); [lia|].
    change (c :: s' ++ rest) with ((c :: s') ++ rest). rewrite (read_nat_ok (c :: s') n); [reflexivity | | exact N].
    split; [exact NE|]. split; [exact F | exact J].
  - cbn [app read_int]. change (45 =? 45) with true. cbv iota. rewrite (read_nat_ok _ _ _ J N). reflexivity.
Qed.

(** The first character of a value is not white space and no closing bracket; it tells the kind. *)
Lemma jint_head s z : jint s z -> exists c t, s = c :: t /\ (c = 45 \/ 48 <= c <= 57).
Proof.
  intros [s' n (NE & F & J)|s' n J]; [|eauto]. destruct s' as [|c s']; [congruence|]. inversion F; subst. eauto.
Qed.
Lemma jvalue_head t v : jvalue t v -> exists c r, t = c :: r /\ is_ws c = false /\ c <> 93 /\ c <> 125 /\ c <> 44.
Proof.
  intros [| | |s z J|t' s []| | | |]; try (eexists; eexists; split; [reflexivity|]; repeat split; discriminate || reflexivity).
  destruct (jint_head _ _ J) as (c & r & -> & H). exists c, r. unfold is_ws. repeat split; lia.
Qed.

Scheme jvalue_mut := Minimality for jvalue Sort Prop
  with jelems_mut := Minimality for jelems Sort Prop
  with jmembers_mut := Minimality for jmembers Sort Prop.

Definition follows (v : json) (rest : str) : Prop := match v with JInt _ => no_digit rest | _ => True end.

Lemma follows_ws v b c rest : ws b -> is_dig c = false -> follows v (b ++ c :: rest).
Proof.
  intros W D. destruct v; try exact I. destruct W as [|x b H]; [exact D|]. cbn in H |- *. unfold is_dig. lia.
Qed.
Lemma skip_ws_to a c r : ws a -> is_ws c = false -> skip_ws (a ++ c :: r) = c :: r.
Proof. intros A C. rewrite (skip_ws_app _ _ A). apply skip_ws_stop, C. Qed.
Lemma skip_ws_value a t v rest : ws a -> jvalue t v -> skip_ws (a ++ t ++ rest) = t ++ rest.
Proof.
  intros A J. destruct (jvalue_head _ _ J) as (c & r & -> & W & _). rewrite (skip_ws_app _ _ A). apply skip_ws_stop, W.
Qed.

Lemma elems_head t l rest : jelems t l -> exists c r, skip_ws (t ++ rest) = c :: r /\ c <> 93.
Proof.
  intros [a t' b v A J B|a t' b v r' l' A J B E]; destruct (jvalue_head _ _ J) as (c & r & -> & W & NC & _);
    rewrite <- app_assoc; cbn [app]; rewrite (skip_ws_to _ _ _ A W); eauto.
Qed.
Lemma members_head t l rest : jmembers t l -> exists c r, skip_ws (t ++ rest) = c :: r /\ c <> 125.
Proof.
  intros [a k key b c t' v d A [k' s J]|a k key b c t' v d r l' A [k' s J]]; rewrite <- app_assoc; cbn [app];
    rewrite (skip_ws_to _ 34 _ A eq_refl); do 2 eexists; (split; [reflexivity | discriminate]).
Qed.
Lemma skip_ws_idem s : skip_ws (skip_ws s) = skip_ws s.
Proof.
  unfold skip_ws. induction s as [|c s IH]; [reflexivity|]. cbn [drop_while]. destruct (is_ws c) eqn:W; [exact IH|].
  cbn [drop_while]. rewrite W. reflexivity.
Qed.
Lemma read_elems_skip fuel s : read_elems fuel (skip_ws s) = read_elems fuel s.
Proof. destruct fuel; [reflexivity|]. cbn [read_elems]. rewrite skip_ws_idem. reflexivity. Qed.
Lemma read_members_skip fuel s : read_members fuel (skip_ws s) = read_members fuel s.
Proof. destruct fuel; [reflexivity|]. cbn [read_members]. rewrite skip_ws_idem. reflexivity. Qed.

Definition value_read (t : str) (v : json) : Prop :=
  forall rest fuel, (List.length t <= fuel)%nat -> follows v rest -> read_value fuel (t ++ rest) = Some (v, rest).
Definition elems_read (t : str) (l : list json) : Prop :=
  forall rest fuel, (List.length t < fuel)%nat -> read_elems fuel (t ++ 93 :: rest) = Some (l, rest).
Definition members_read (t : str) (l : list (str * json)) : Prop :=
  forall rest fuel, (List.length t < fuel)%nat -> read_members fuel (t ++ 125 :: rest) = Some (l, rest).

Ltac fuel_pos := match goal with L : (_ <= ?f)%nat |- _ => destruct f; [cbn in L; rewrite ?app_length in L; cbn in L; lia|]
                 | L : (_ < ?f)%nat |- _ => destruct f; [cbn in L; rewrite ?app_length in L; cbn in L; lia|] end.
Ltac len L := cbn [List.length] in L; rewrite ?app_length in L; cbn [List.length] in L; rewrite ?app_length in L; cbn [List.length] in L; rewrite ?app_length in L; cbn [List.length] in L; lia.

Lemma read_value_ok t v : jvalue t v -> value_read t v.
Proof.
  pose (P := fun t v => jvalue t v /\ value_read t v).
  pose (P0 := fun t l => jelems t l /\ elems_read t l). pose (P1 := fun t l => jmembers t l /\ members_read t l).
  intros J. enough (P t v) by (unfold P in *; tauto). revert t v J.
  apply (jvalue_mut P P0 P1); unfold P, P0, P1; clear P P0 P1.
  - split; [constructor|]. intros rest fuel L _. fuel_pos. reflexivity.
  - split; [constructor|]. intros rest fuel L _. fuel_pos. reflexivity.
  - split; [constructor|]. intros rest fuel L _. fuel_pos. reflexivity.
  - intros s z J. split; [apply jv_int, J|]. intros rest fuel L F. cbn [follows] in F.
    destruct (jint_head _ _ J) as (c & r & E & H). destruct fuel; [rewrite E in L; cbn in L; lia|].
    pose proof (read_int_ok _ _ _ J F) as R. rewrite E in R |- *. cbn [app] in R |- *. cbn [read_value].
    repeat match goal with |- context [c =? ?k] => destruct (N.eqb_spec c k); [lia|] end.
    rewrite R. reflexivity.
  - intros t s J. split; [apply jv_string, J|]. intros rest fuel L _. destruct J as [t s J]. fuel_pos.
    cbn [app read_value]. change (34 =? 34) with true. cbv iota. rewrite <- app_assoc. cbn [app].
    rewrite (read_chars_ok _ _ J); [reflexivity|]. rewrite app_length. lia.
  - intros w W. split; [apply jv_empty, W|]. intros rest fuel L _. fuel_pos. cbn [app read_value].
    change (91 =? 34) with false. change (91 =? 91) with true. cbv iota. rewrite <- app_assoc. cbn [app].
    rewrite (skip_ws_to _ 93 _ W eq_refl). reflexivity.
  - intros t l J [_ R]. split; [apply jv_array, J|]. intros rest fuel L _. fuel_pos. cbn [app read_value].
    change (91 =? 34) with false. change (91 =? 91) with true. cbv iota. rewrite <- app_assoc. cbn [app].
    destruct (elems_head t l (93 :: rest) J) as (c & r & E & NC). rewrite E.
    destruct (N.eqb_spec c 93); [congruence|]. rewrite <- E, read_elems_skip, R; [reflexivity|]. len L.
  - intros w W. split; [apply jv_no_members, W|]. intros rest fuel L _. fuel_pos. cbn [app read_value].
    change (123 =? 34) with false. change (123 =? 91) with false. change (123 =? 123) with true. cbv iota. rewrite <- app_assoc. cbn [app].
    rewrite (skip_ws_to _ 125 _ W eq_refl). reflexivity.
  - intros t l J [_ R]. split; [apply jv_object, J|]. intros rest fuel L _. fuel_pos. cbn [app read_value].
    change (123 =? 34) with false. change (123 =? 91) with false. change (123 =? 123) with true. cbv iota. rewrite <- app_assoc. cbn [app].
    destruct (members_head t l (125 :: rest) J) as (c & r & E & NC). rewrite E.
    destruct (N.eqb_spec c 125); [congruence|]. rewrite <- E, read_members_skip, R; [reflexivity|]. len L.
  - intros a t b v A J [_ R] B. split; [apply je_last; assumption|]. intros rest fuel L. fuel_pos. cbn [read_elems].
    rewrite <- !app_assoc. rewrite (skip_ws_value a t v _ A J).
    rewrite R; [|len L | apply follows_ws; [exact B | reflexivity]].
    rewrite (skip_ws_to b 93 _ B eq_refl). reflexivity.
  - intros a t b v r l A J [_ R] B JE [_ RE]. split; [apply je_more; assumption|]. intros rest fuel L. fuel_pos. cbn [read_elems].
    rewrite <- !app_assoc. cbn [app]. rewrite (skip_ws_value a t v _ A J).
    rewrite R; [|len L | apply follows_ws; [exact B | reflexivity]].
    rewrite (skip_ws_to b 44 _ B eq_refl). change (44 =? 93) with false. change (44 =? 44) with true. cbv iota.
    rewrite RE; [reflexivity|]. len L.
  - intros a k key b c t v d A K B C J [_ R] D. split; [apply jm_last; assumption|]. intros rest fuel L. fuel_pos. cbn [read_members].
    destruct K as [k s K]. rewrite <- !app_assoc. cbn [app]. rewrite (skip_ws_to a 34 _ A eq_refl).
    change (34 =? 34) with true. cbv iota. rewrite <- !app_assoc. cbn [app].
    rewrite (read_chars_ok _ _ K); [|rewrite app_length; lia].
    rewrite (skip_ws_to b 58 _ B eq_refl). change (58 =? 58) with true. cbv iota.
    rewrite <- ?app_assoc; cbn [app]; rewrite (skip_ws_value c t v _ C J). rewrite R; [|len L | apply follows_ws; [exact D | reflexivity]].
    rewrite (skip_ws_to d 125 _ D eq_refl). reflexivity.
  - intros a k key b c t v d r l A K B C J [_ R] D JM [_ RM]. split; [apply jm_more; assumption|]. intros rest fuel L. fuel_pos. cbn [read_members].
    destruct K as [k s K]. rewrite <- !app_assoc. cbn [app]. rewrite (skip_ws_to a 34 _ A eq_refl).
    change (34 =? 34) with true. cbv iota. rewrite <- !app_assoc. cbn [app].
    rewrite (read_chars_ok _ _ K); [|rewrite app_length; lia].
    rewrite (skip_ws_to b 58 _ B eq_refl). change (58 =? 58) with true. cbv iota.
    rewrite <- ?app_assoc; cbn [app]; rewrite (skip_ws_value c t v _ C J). rewrite R; [|len L | apply follows_ws; [exact D | reflexivity]].
    rewrite (skip_ws_to d 44 _ D eq_refl). change (44 =? 125) with false. change (44 =? 44) with true. cbv iota.
    rewrite RM; [reflexivity|]. len L.
Qed.

(** The reader gives the value of every JSON text; so there is one value only. *)
Lemma ws_only b : ws b -> skip_ws b = [].
Proof. intros B. rewrite <- (app_nil_r b), (skip_ws_app _ _ B). reflexivity. Qed.
Lemma loads_ok s j : json_text s j -> loads s = Some j.
Proof.
  intros (a & t & b & -> & A & B & J). unfold loads. rewrite (skip_ws_value a t j b A J).
  rewrite (read_value_ok t j J b).
  - rewrite (ws_only b B). reflexivity.
  - rewrite !app_length. lia.
  - destruct j; try exact I. destruct B as [|x b H B]; [exact I|]. cbn in H |- *. unfold is_dig. lia.
Qed.
Lemma json_text_unique s j j' : json_text s j -> json_text s j' -> j = j'.
Proof. intros A B. apply loads_ok in A, B. congruence. Qed.

(** ** What is read is JSON *)

Lemma unescape_inv e c : unescape e = Some c -> In (e, c) escapes.
Proof.
  unfold unescape, escapes. intros H.
  repeat match type of H with (if ?x =? ?k then _ else _) = _ => destruct (N.eqb_spec x k); [subst; injection H as <-; cbn; tauto|] end.
  discriminate.
Qed.
Lemma skip_ws_inv s : exists a, s = a ++ skip_ws s /\ ws a.
Proof.
  unfold skip_ws. induction s as [|c s (a & E & A)]; cbn [drop_while]; [exists []; split; [reflexivity | constructor]|].
  destruct (is_ws c) eqn:W; [|exists []; split; [reflexivity | constructor]].
  exists (c :: a). split; [cbn; rewrite <- E; reflexivity | constructor; [apply is_ws_iff, W | exact A]].
Qed.
Lemma skip_ws_eq s t : skip_ws s = t -> exists a, s = a ++ t /\ ws a.
Proof. intros <-. apply skip_ws_inv. Qed.

Lemma read_chars_inv fuel : forall s t r, read_chars fuel s = Some (t, r) -> exists u, s = u ++ 34 :: r /\ jchars u t.
Proof.
  induction fuel as [|f IH]; intros s t r; [discriminate|]. cbn [read_chars]. cbv zeta. destruct s as [|c s]; [discriminate|].
  destruct (N.eqb_spec c 34) as [->|N1]; [intros [= <- <-]; exists []; split; [reflexivity | constructor]|].
  destruct (N.eqb_spec c 92) as [->|N2].
  - destruct s as [|e s]; [discriminate|]. destruct (N.eqb_spec e 117) as [->|N3].
    + destruct (read_hex4 s) as [[n s1]|] eqn:R; [|discriminate]. destruct (read_hex4_inv _ _ _ R) as (h & -> & H).
      destruct (if is_high n then low_escape s1 else None) as [[m s2]|] eqn:L.
      * destruct (is_high n) eqn:HI; [|discriminate].
        unfold low_escape in L. destruct s1 as [|a [|b s1]]; try discriminate.
        destruct ((a =? 92) && (b =? 117)) eqn:AB; [|discriminate]. assert (a = 92 /\ b = 117) as [-> ->] by lia.
        destruct (read_hex4 s1) as [[m' r']|] eqn:R'; [|discriminate]. destruct (is_low m') eqn:LO; [|discriminate]. injection L as -> ->.
        destruct (read_hex4_inv _ _ _ R') as (h' & -> & H').
        destruct (read_chars f s2) as [[t' r'']|] eqn:E; [|discriminate]. intros [= <- <-].
        destruct (IH _ _ _ E) as (u & -> & J). exists (92 :: 117 :: h ++ 92 :: 117 :: h' ++ u).
        split; [cbn; rewrite <- app_assoc; cbn; rewrite <- app_assoc; reflexivity|].
        apply jc_pair; try assumption; [unfold is_high in HI; unfold high_surrogate | unfold is_low in LO; unfold low_surrogate]; lia.
      * destruct (read_chars f s1) as [[t' r'']|] eqn:E; [|discriminate]. intros [= <- <-].
        destruct (IH _ _ _ E) as (u & -> & J). exists (92 :: 117 :: h ++ u).
        split; [cbn; rewrite <- app_assoc; reflexivity|]. apply jc_unicode; try assumption.
        intros (HS & h' & n' & t2 & -> & H' & LS). assert (HI : is_high n = true) by (unfold is_high; unfold high_surrogate in HS; lia).
        rewrite HI in L. cbn [app low_escape] in L. change ((92 =? 92) && (117 =? 117)) with true in L. cbv iota in L.
        rewrite <- app_assoc, (read_hex4_ok _ _ _ H') in L.
        assert (LO : is_low n' = true) by (unfold is_low; unfold low_surrogate in LS; lia). rewrite LO in L. discriminate.
    + destruct (unescape e) as [c|] eqn:U; [|discriminate]. destruct (read_chars f s) as [[t' r'']|] eqn:E; [|discriminate]. intros [= <- <-].
      destruct (IH _ _ _ E) as (u & -> & J). exists (92 :: e :: u). split; [reflexivity|]. apply jc_escape; [apply unescape_inv, U | exact J].
  - destruct (N.ltb_spec c 32); [discriminate|]. destruct (read_chars f s) as [[t' r'']|] eqn:E; [|discriminate]. intros [= <- <-].
    destruct (IH _ _ _ E) as (u & -> & J). exists (c :: u). split; [reflexivity|]. apply jc_plain; assumption.
Qed.

Lemma take_drop_while (f : N -> bool) s : s = take_while f s ++ drop_while f s /\ Forall (fun c => f c = true) (take_while f s).
Proof.
  induction s as [|c s [E F]]; cbn [take_while drop_while]; [split; [reflexivity | constructor]|].
  destruct (f c) eqn:X; [|split; [reflexivity | constructor]]. split; [cbn; rewrite <- E; reflexivity | constructor; assumption].
Qed.
Lemma read_nat_inv s n r : read_nat s = Some (n, r) -> exists t, s = t ++ r /\ jnat t n.
Proof.
  unfold read_nat. destruct (take_drop_while is_dig s) as [E F]. destruct (take_while is_dig s) as [|c ds] eqn:T; [discriminate|].
  destruct ((c =? 48) && negb (seqb ds [])) eqn:B; [discriminate|]. intros [= <- <-]. exists (c :: ds). split; [exact E|].
  split; [discriminate|]. split; [|split; [|reflexivity]].
  - eapply Forall_impl; [|exact F]. intros x. unfold is_dig. cbn. lia.
  - intros r [= -> ->]. apply andb_false_iff in B as [B|B]; [discriminate|]. destruct (seqb_spec r []); [assumption | discriminate].
Qed.
Lemma read_int_inv s z r : read_int s = Some (z, r) -> exists t, s = t ++ r /\ jint t z.
Proof.
  unfold read_int. destruct s as [|c s]; [discriminate|]. destruct (N.eqb_spec c 45) as [->|NE].
  - destruct (read_nat s) as [[n r']|] eqn:E; [|discriminate]. intros [= <- <-]. destruct (read_nat_inv _ _ _ E) as (t & -> & J).
    exists (45 :: t). split; [reflexivity | apply ji_neg, J].
  - destruct (read_nat (c :: s)) as [[n r']|] eqn:E; [|discriminate]. intros [= <- <-]. destruct (read_nat_inv _ _ _ E) as (t & -> & J).
    exists t. split; [reflexivity | apply ji_pos, J].
Qed.
Lemma startswith_inv p s : startswith p s = true -> s = p ++ skipn (List.length p) s.
Proof.
  revert s. induction p as [|x p IH]; intros s H; [reflexivity|]. destruct s as [|y s]; [discriminate|].
  cbn [startswith] in H. apply andb_true_iff in H as [H1 H2]. apply N.eqb_eq in H1. subst y. cbn [List.length skipn app]. f_equal. apply IH, H2.
Qed.

Lemma read_inv fuel :
  (forall s v r, read_value fuel s = Some (v, r) -> exists t, s = t ++ r /\ jvalue t v)
  /\ (forall s l r, read_elems fuel s = Some (l, r) -> exists t, s = t ++ 93 :: r /\ jelems t l)
  /\ (forall s l r, read_members fuel s = Some (l, r) -> exists t, s = t ++ 125 :: r /\ jmembers t l).
Proof.
  induction fuel as [|f (IV & IE & IM)]; [repeat split; discriminate|]. split; [|split]; intros s.
  - intros v r. cbn [read_value]. destruct s as [|c s]; [discriminate|].
    destruct (N.eqb_spec c 34) as [->|N1].
    { destruct (read_chars (S (List.length s)) s) as [[t r']|] eqn:E; [|discriminate]. intros [= <- <-].
      destruct (read_chars_inv _ _ _ _ E) as (u & -> & J). exists (34 :: u ++ [34]). split; [cbn; rewrite <- app_assoc; reflexivity|].
      apply jv_string. constructor. exact J. }
    destruct (N.eqb_spec c 91) as [->|N2].
    { destruct (skip_ws s) as [|c' s'] eqn:E; [discriminate|]. destruct (N.eqb_spec c' 93) as [->|N3].
      - intros [= <- <-]. destruct (skip_ws_eq _ _ E) as (a & -> & A). exists (91 :: a ++ [93]). split; [cbn; rewrite <- app_assoc; reflexivity | apply jv_empty, A].
      - destruct (read_elems f (c' :: s')) as [[l r']|] eqn:R; [|discriminate]. intros [= <- <-].
        rewrite <- E, read_elems_skip in R. destruct (IE _ _ _ R) as (t & -> & J). exists (91 :: t ++ [93]). split; [cbn; rewrite <- app_assoc; reflexivity | apply jv_array, J]. }
    destruct (N.eqb_spec c 123) as [->|N3].
    { destruct (skip_ws s) as [|c' s'] eqn:E; [discriminate|]. destruct (N.eqb_spec c' 125) as [->|N3].
      - intros [= <- <-]. destruct (skip_ws_eq _ _ E) as (a & -> & A). exists (123 :: a ++ [125]). split; [cbn; rewrite <- app_assoc; reflexivity | apply jv_no_members, A].
      - destruct (read_members f (c' :: s')) as [[l r']|] eqn:R; [|discriminate]. intros [= <- <-].
        rewrite <- E, read_members_skip in R. destruct (IM _ _ _ R) as (t & -> & J). exists (123 :: t ++ [125]). split; [cbn; rewrite <- app_assoc; reflexivity | apply jv_object, J]. }
    assert (W : forall w j s', read_word w j s' = Some (v, r) -> v = j /\ s' = utf8 w ++ r).
    { intros w j s' H. unfold read_word in H. destruct (startswith (utf8 w) s') eqn:B; [|discriminate]. injection H as <- <-.
      split; [reflexivity | apply startswith_inv, B]. }
    destruct (N.eqb_spec c 110); [intros H; destruct (W _ _ _ H) as [-> E]; rewrite E; eexists; split; [reflexivity | constructor]|].
    destruct (N.eqb_spec c 116); [intros H; destruct (W _ _ _ H) as [-> E]; rewrite E; eexists; split; [reflexivity | constructor]|].
    destruct (N.eqb_spec c 102); [intros H; destruct (W _ _ _ H) as [-> E]; rewrite E; eexists; split; [reflexivity | constructor]|].
    destruct (read_int (c :: s)) as [[z r']|] eqn:R; [|discriminate]. intros [= <- <-]. destruct (read_int_inv _ _ _ R) as (t & -> & J).
    exists t. split; [reflexivity | apply jv_int, J].
  - intros l r. cbn [read_elems]. destruct (skip_ws_inv s) as (a & E & A).
    destruct (read_value f (skip_ws s)) as [[v r1]|] eqn:R; [|discriminate]. destruct (IV _ _ _ R) as (t & Q & J). rewrite Q in E. clear Q R.
    destruct (skip_ws r1) as [|c r'] eqn:B; [discriminate|]. destruct (skip_ws_eq _ _ B) as (b & -> & WB).
    destruct (N.eqb_spec c 93) as [->|N1].
    + intros [= <- <-]. exists (a ++ t ++ b). split; [rewrite E, <- !app_assoc; reflexivity | apply je_last; assumption].
    + destruct (N.eqb_spec c 44) as [->|]; [|discriminate]. destruct (read_elems f r') as [[l' r'']|] eqn:R; [|discriminate]. intros [= <- <-].
      destruct (IE _ _ _ R) as (t' & -> & J'). exists (a ++ t ++ b ++ 44 :: t'). split; [rewrite E, <- !app_assoc; reflexivity | apply je_more; assumption].
  - intros l r. cbn [read_members]. destruct (skip_ws_inv s) as (a & E & A). destruct (skip_ws s) as [|q s1]; [discriminate|].
    destruct (N.eqb_spec q 34) as [->|]; [|discriminate].
    destruct (read_chars (S (List.length s1)) s1) as [[k r1]|] eqn:K; [|discriminate]. destruct (read_chars_inv _ _ _ _ K) as (u & -> & JK). clear K.
    destruct (skip_ws r1) as [|col r2] eqn:B; [discriminate|]. destruct (skip_ws_eq _ _ B) as (b & -> & WB). clear B.
    destruct (N.eqb_spec col 58) as [->|]; [|discriminate]. destruct (skip_ws_inv r2) as (c & E2 & C).
    destruct (read_value f (skip_ws r2)) as [[v r3]|] eqn:R; [|discriminate]. destruct (IV _ _ _ R) as (t & Q & J). rewrite Q in E2. clear Q R. subst r2.
    destruct (skip_ws r3) as [|x r4] eqn:B; [discriminate|]. destruct (skip_ws_eq _ _ B) as (d & -> & WD). clear B.
    assert (JS : jstring (34 :: u ++ [34]) k) by (constructor; exact JK).
    destruct (N.eqb_spec x 125) as [->|].
    + intros [= <- <-]. exists (a ++ (34 :: u ++ [34]) ++ b ++ 58 :: c ++ t ++ d). split; [|apply jm_last; assumption].
      rewrite E. repeat (rewrite <- !app_assoc; cbn [app]). reflexivity.
    + destruct (N.eqb_spec x 44) as [->|]; [|discriminate]. destruct (read_members f r4) as [[l' r'']|] eqn:R; [|discriminate]. intros [= <- <-].
      destruct (IM _ _ _ R) as (t' & -> & J'). exists (a ++ (34 :: u ++ [34]) ++ b ++ 58 :: c ++ t ++ d ++ 44 :: t'). split; [|apply jm_more; assumption].
      rewrite E. repeat (rewrite <- !app_assoc; cbn [app]). reflexivity.
Qed.
Lemma loads_inv s j : loads s = Some j -> json_text s j.
Proof.
  unfold loads. destruct (skip_ws_inv s) as (a & E & A).
  destruct (read_value (S (S (List.length s + List.length s))) (skip_ws s)) as [[v r]|] eqn:R; [|discriminate].
  destruct (skip_ws r) as [|c r'] eqn:B; [|discriminate]. intros [= <-]. destruct (proj1 (read_inv _) _ _ _ R) as (t & Q & J).
  destruct (skip_ws_eq _ _ B) as (b & Eb & WB). rewrite app_nil_r in Eb. subst r. exists a, t, b.
  split; [rewrite E, Q; reflexivity|]. auto.
Qed.
Theorem loads_iff s j : loads s = Some j <-> json_text s j.
Proof. split; [apply loads_inv | apply loads_ok]. Qed.

(** No proper prefix of the text of an object is JSON. *)
Lemma object_prefix p q l : jvalue (p ++ q) (JObj l) -> q <> [] -> loads p = None.
Proof.
  intros J NQ. destruct (loads p) as [j|] eqn:L; [|reflexivity]. exfalso. apply loads_inv in L as (a & t & b & -> & A & B & T).
  destruct (jvalue_head _ _ J) as (c & r & E & W & _).
  assert (a = []) as ->.
  { destruct A as [|x a' X A]; [reflexivity|]. injection E as -> _. apply is_ws_iff in X. congruence. }
  cbn [app] in E. rewrite <- !app_assoc in J. cbn [app] in J.
  assert (F : follows j (b ++ q)).
  { destruct j; try exact Logic.I. exfalso. destruct (jint_head _ _ ltac:(inversion T; eassumption)) as (c' & r' & -> & H).
    inversion J as [| | | |? ? JJ| | | |]; try discriminate; match goal with H : _ = _ |- _ => injection H as -> _ end; lia. }
  pose proof (read_value_ok _ _ T (b ++ q) (List.length (t ++ b ++ q))) as R1.
  pose proof (read_value_ok _ _ J [] (List.length (t ++ b ++ q)) (le_n _) Logic.I) as R2.
  rewrite app_nil_r in R2. rewrite R1 in R2; [|rewrite app_length; lia | exact F]. injection R2 as _ R2.
  apply app_eq_nil in R2 as [_ ->]. congruence.
Qed.
