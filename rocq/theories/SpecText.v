(** Small, independent vocabulary for stating properties about texts.
    Only the character classes (isdigit, isspace, isword: Python's \d, \s, \w) come from
    the model of the language; nothing here refers to the model of /repo. *)
From Coq Require Import NArith ZArith List Bool.
From Verif Require Import PyStr.
Import ListNotations.
Local Open Scope N_scope.

(** All characters of [s] satisfy [p]. *)
Definition all (p : N -> bool) (s : str) : Prop := Forall (fun c => p c = true) s.

(** The text begins with a character satisfying [p]. *)
Definition begins (p : N -> bool) (s : str) : Prop := exists c r, s = c :: r /\ p c = true.

(** A non-empty sequence of digits. *)
Definition numeral (s : str) : Prop := s <> [] /\ all isdigit s.

(** White space, possibly none. *)
Definition blanks (s : str) : Prop := all isspace s.

(** The digit a character stands for. *)
Definition digit (c : N) : N := match digit_val c with Some d => d | None => 0 end.

(** Positional decimal value. *)
Fixpoint dec_value (s : str) : N :=
  match s with
  | [] => 0
  | c :: r => digit c * 10 ^ N.of_nat (length r) + dec_value r
  end.

(** CPython converts at most 4300 digits to an int. *)
Definition convertible (s : str) : Prop := N.of_nat (length s) <= 4300.

(** [a] is a contiguous piece of [b]. *)
Definition piece_of (a b : str) : Prop := exists u v, b = u ++ a ++ v.

(** Two numbers separated by a colon with optional blanks, then anything that does not
    continue the second number. *)
Inductive two_numbers : str -> str -> str -> Prop :=
| two_numbers_intro hi ws1 ws2 lo rest :
    numeral hi -> blanks ws1 -> blanks ws2 -> numeral lo -> ~ begins isdigit rest ->
    two_numbers (hi ++ ws1 ++ [58] ++ ws2 ++ lo ++ rest) hi lo.

(** One number, then anything that neither continues it nor supplies a second one. *)
Inductive one_number : str -> str -> Prop :=
| one_number_intro hi rest :
    numeral hi -> ~ begins isdigit rest ->
    ~ (exists ws1 ws2 t, rest = ws1 ++ [58] ++ ws2 ++ t /\ blanks ws1 /\ blanks ws2
                          /\ begins isdigit t) ->
    one_number (hi ++ rest) hi.

(** The alphabet of formula ranges: letters, digits, + - * ( ) and blanks. *)
Definition formula_char (c : N) : bool :=
  ((97 <=? c) && (c <=? 122)) || ((65 <=? c) && (c <=? 90)) || ((48 <=? c) && (c <=? 57))
  || (c =? 43) || (c =? 45) || (c =? 42) || (c =? 40) || (c =? 41) || isspace c.

(** The text without spaces and line breaks. *)
Definition unspaced (t : str) : str := filter (fun c => negb ((c =? 32) || (c =? 10))) t.

(** [t], spaces and line breaks dropped, begins with a formula range A:B (A and B the
    longest possible). *)
Definition formula_range (t a b : str) : Prop :=
  a <> [] /\ all formula_char a /\ b <> [] /\ all formula_char b /\
  exists rest, unspaced t = a ++ [58] ++ b ++ rest /\ ~ begins formula_char rest.
