(** Specification: what is read of an element, and the numbers in texts. *)
From Coq Require Import NArith ZArith List String.
From Verif Require Import PyStr Xml SpecText.
Import ListNotations.
Local Open Scope list_scope.

(** The text before the first child; then, child by child, the text of the child and the text
    that follows it. *)
Fixpoint whole_text (e : elem) : str :=
  match e with
  | Elem _ _ before ks => before ++ flat_map (fun k => whole_text (fst k) ++ snd k) ks
  end.

(** The value of an attribute: the first one of the name. *)
Inductive valued (n : str) : list (str * str) -> option str -> Prop :=
| va_none : valued n [] None
| va_here v a : valued n ((n, v) :: a) (Some v)
| va_next m v a o : m <> n -> valued n a o -> valued n ((m, v) :: a) o.

(** The children with a tag, in order. *)
Inductive picked (t : str) : list kid -> list elem -> Prop :=
| pi_end : picked t [] []
| pi_it c s ks l : e_tag c = t -> picked t ks l -> picked t ((c, s) :: ks) (c :: l)
| pi_other c s ks l : e_tag c <> t -> picked t ks l -> picked t ((c, s) :: ks) l.

(** The children of those children that reach over columns, in order. *)
Inductive below_spanning : list kid -> list elem -> Prop :=
| bs_end : below_spanning [] []
| bs_it t a x qs s ks l v :
    valued (utf8 "colspan") a (Some v) -> below_spanning ks l ->
    below_spanning ((Elem t a x qs, s) :: ks) (map fst qs ++ l)
| bs_other t a x qs s ks l :
    valued (utf8 "colspan") a None -> below_spanning ks l -> below_spanning ((Elem t a x qs, s) :: ks) l.

(** Digits, which may be separated by single underscores: the text and the digits. *)
Inductive grouped : str -> str -> Prop :=
| gr_last ds : numeral ds -> grouped ds ds
| gr_more ds s u : numeral ds -> grouped s u -> grouped (ds ++ 95%N :: s) (ds ++ u).
(** A text that writes down an integer: white space, a sign, digits, white space; not more than
    4300 digits. *)
Definition writes_integer (s : str) (z : Z) : Prop :=
  exists w sign body w' ds, s = w ++ sign ++ body ++ w' /\ blanks w /\ blanks w' /\ grouped body ds /\ convertible ds
    /\ (sign = [] /\ z = Z.of_N (dec_value ds) \/ sign = [43%N] /\ z = Z.of_N (dec_value ds)
        \/ sign = [45%N] /\ z = Z.opp (Z.of_N (dec_value ds))).
