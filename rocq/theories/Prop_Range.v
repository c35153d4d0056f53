(** Properties C01, C02 and C38: how the range cell of a struct row is read.
    [parse_range x txt key f] is StructTableExtractor._parse_range: its result is
    (outcome, flag, recorded events); [f] is the parser's unwinding flag. *)
From Coq Require Import NArith ZArith List Bool String.
From Verif Require Import PyStr Regexes Xml Json Lint Extract SpecText RegexFacts RangeProofs.
Import ListNotations.
Local Open Scope list_scope.
Local Open Scope N_scope.

(** The lint entry recorded for a row. *)
Definition entry (c : code) (x : xctx) (key : str) : event :=
  EvLint (mkLint c (x_fig x) (code_msg c) (Some key) []).

(** C01/C02: 'high : low' with any white space around the colon and anything after it. *)
Theorem C01_range_pair : forall x txt hi lo key f,
  x_fig x <> [] -> two_numbers txt hi lo -> convertible hi -> convertible lo ->
  parse_range x txt key f
  = (Ok (RInt (Z.of_N (dec_value lo)) (Z.of_N (dec_value hi))), f,
     if dec_value hi <? dec_value lo then [entry R1002 x key] else []).
Proof. intros. apply parse_range_two; assumption. Qed.
Print Assumptions C01_range_pair.

(** C01/C02: a single number; low = high and nothing is recorded. *)
Theorem C01_range_single : forall x txt hi key f,
  x_fig x <> [] -> one_number txt hi -> convertible hi ->
  parse_range x txt key f
  = (Ok (RInt (Z.of_N (dec_value hi)) (Z.of_N (dec_value hi))), f, []).
Proof. intros. apply parse_range_one; assumption. Qed.
Print Assumptions C01_range_single.

(** C01: any other text is kept verbatim and reported. *)
Theorem C01_range_text : forall x txt key f,
  x_fig x <> [] -> ~ begins isdigit txt ->
  parse_range x txt key f = (Ok (RText txt), f, [entry R1001 x key]).
Proof. intros. apply parse_range_text; assumption. Qed.
Print Assumptions C01_range_text.

(** C01: numbers Python cannot convert (more than 4300 digits) raise ValueError. *)
Theorem C01_range_overlong : forall x txt hi lo key f,
  x_fig x <> [] ->
  (two_numbers txt hi lo /\ ~ (convertible hi /\ convertible lo))
  \/ (one_number txt hi /\ ~ convertible hi) ->
  parse_range x txt key f = (Exn EValueError, f, []).
Proof.
  intros x txt hi lo key f _ [[H C] | [H C]].
  - eapply parse_range_two_long; eassumption.
  - eapply parse_range_one_long; eassumption.
Qed.
Print Assumptions C01_range_overlong.

(** The forms cover every text, and those with numbers are the ones beginning with a digit. *)
Theorem C01_range_cases : forall txt,
  ((exists hi lo, two_numbers txt hi lo) \/ (exists hi, one_number txt hi)
   \/ ~ begins isdigit txt)
  /\ (begins isdigit txt <->
      (exists hi lo, two_numbers txt hi lo) \/ (exists hi, one_number txt hi)).
Proof.
  intros txt. split; [apply range_forms|]. split.
  - intros H. destruct (range_forms txt) as [? | [? | ?]]; tauto.
  - intros [(hi & lo & H) | (hi & H)];
      [eapply two_numbers_begins | eapply one_number_begins]; exact H.
Qed.
Print Assumptions C01_range_cases.

(** Written-out numbers of any size are read back. *)
Theorem C01_range_roundtrip : forall x hi lo rest key f,
  x_fig x <> [] -> ~ begins isdigit rest ->
  convertible (str_of_N hi) -> convertible (str_of_N lo) ->
  parse_range x (str_of_N hi ++ [58] ++ str_of_N lo ++ rest) key f
  = (Ok (RInt (Z.of_N lo) (Z.of_N hi)), f, if hi <? lo then [entry R1002 x key] else []).
Proof.
  intros x hi lo rest key f Hx Hr H1 H2.
  pose proof (C01_range_pair x (str_of_N hi ++ [] ++ [58] ++ [] ++ str_of_N lo ++ rest)
                (str_of_N hi) (str_of_N lo) key f Hx) as P.
  rewrite !str_of_N_value in P. apply P; [|exact H1 | exact H2].
  constructor; try apply str_of_N_numeral; [constructor | constructor | exact Hr].
Qed.
Print Assumptions C01_range_roundtrip.

(** C02: R1002 is recorded exactly for two numbers with low > high, nothing else is
    recorded then, and the field keeps both numbers as written. *)
Theorem C02_reversed_iff : forall x txt key f,
  x_fig x <> [] ->
  let '(out, _, evs) := parse_range x txt key f in
  ((exists e, In (EvLint e) evs /\ l_code e = R1002) <->
   (exists hi lo, two_numbers txt hi lo /\ convertible hi /\ convertible lo
                  /\ dec_value hi < dec_value lo))
  /\ (forall hi lo, two_numbers txt hi lo -> convertible hi -> convertible lo ->
      dec_value hi < dec_value lo ->
      out = Ok (RInt (Z.of_N (dec_value lo)) (Z.of_N (dec_value hi)))
      /\ evs = [entry R1002 x key]).
Proof. exact reversed_iff. Qed.
Print Assumptions C02_reversed_iff.

(** C38 (reading): formula ranges of list tables come out as text, first part as high. *)
Theorem C38_formula_range : forall x txt a b f,
  formula_range txt a b ->
  parse_dynamic_range x txt f = (Ok (RDyn b a), f, []).
Proof. exact formula_range_ok. Qed.
Print Assumptions C38_formula_range.

Theorem C38_formula_range_text : forall x txt f,
  x_fig x <> [] -> (forall a b, ~ formula_range txt a b) ->
  parse_dynamic_range x txt f = (Ok (RText txt), f, [entry R1001 x txt]).
Proof. exact formula_range_none. Qed.
Print Assumptions C38_formula_range_text.

(** Concrete cases meeting the hypotheses. *)
Definition demo_x : xctx := mkX BitsTableExtractor (mkMeta None (utf8 "7") None) 0 1 1.

Example demo_two : two_numbers (utf8 "31 : 16 bits") (utf8 "31") (utf8 "16").
Proof.
  apply (two_numbers_intro (utf8 "31") (utf8 " ") (utf8 " ") (utf8 "16") (utf8 " bits"));
    repeat constructor; try discriminate. apply not_begins. reflexivity.
Qed.
Example demo_two_run :
  parse_range demo_x (utf8 "31 : 16 bits") (utf8 "k") false = (Ok (RInt 16 31), false, []).
Proof. vm_compute. reflexivity. Qed.
Example demo_reversed_run :
  parse_range demo_x (utf8 "3:16") (utf8 "3:16") false
  = (Ok (RInt 16 3), false, [entry R1002 demo_x (utf8 "3:16")]).
Proof. vm_compute. reflexivity. Qed.
Example demo_one : one_number (utf8 "07 (Mandatory)") (utf8 "07").
Proof.
  apply (one_number_intro (utf8 "07") (utf8 " (Mandatory)")).
  - repeat constructor; discriminate.
  - apply not_begins. reflexivity.
  - intros (w1 & w2 & t & E & B1 & _). apply all_forallb in B1.
    pose proof (PyStrFacts.drop_while_unique isspace w1 ([58] ++ w2 ++ t) B1) as D.
    rewrite <- E in D. discriminate D. reflexivity.
Qed.
Example demo_text : ~ begins isdigit (utf8 "Bytes").
Proof. apply not_begins. reflexivity. Qed.
Example demo_formula :
  formula_range (utf8 "(N*8)+7 : N*8") (utf8 "(N*8)+7") (utf8 "N*8").
Proof.
  split; [discriminate|]. split; [apply all_forallb; reflexivity|]. split; [discriminate|].
  split; [apply all_forallb; reflexivity|].
  exists []. split; [reflexivity|]. apply not_begins. exact I.
Qed.
