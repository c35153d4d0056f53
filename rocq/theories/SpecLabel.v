(** Independent vocabulary for the properties about labels and briefs. *)
From Coq Require Import NArith List Bool String.
From Verif Require Import PyStr SpecText.
Import ListNotations.
Local Open Scope list_scope.
Local Open Scope N_scope.

(** Letters, digits, underscore (any script), white space and , - . / & *)
Definition name_char (c : N) : bool :=
  isword c || isspace c || (c =? 44) || (c =? 45) || (c =? 46) || (c =? 47) || (c =? 38).
Definition word_or_space (c : N) : bool := isword c || isspace c.
(** Word characters, white space, / and - *)
Definition vname_char (c : N) : bool := isword c || isspace c || (c =? 47) || (c =? 45).

Definition is_char (d c : N) : bool := c =? d.

(** [o] is the character [c], or nothing if the text [rest] does not begin with it. *)
Definition optional (c : N) (o rest : str) : Prop :=
  o = [c] \/ (o = [] /\ ~ begins (is_char c) rest).

(** The reading of a struct label text: name, '(' if there, acronym, ')' if there, ':' if
    there, rest; name and acronym as long as possible. *)
Definition struct_text (s name acr rest : str) : Prop :=
  exists o p k,
    s = name ++ o ++ acr ++ p ++ k ++ rest
    /\ all name_char name /\ ~ begins name_char (o ++ acr ++ p ++ k ++ rest)
    /\ optional 40 o (acr ++ p ++ k ++ rest)
    /\ all word_or_space acr /\ ~ begins word_or_space (p ++ k ++ rest)
    /\ optional 41 p (k ++ rest)
    /\ optional 58 k rest.

(** The name of a value label text: the longest prefix over the name alphabet. *)
Definition value_text (s name : str) : Prop :=
  exists rest, s = name ++ rest /\ all vname_char name /\ ~ begins vname_char rest.

Definition ascii_letter_char (c : N) : bool :=
  ((65 <=? c) && (c <=? 90)) || ((97 <=? c) && (c <=? 122)).

(** A letter a-z/A-Z followed by word characters, optionally one final newline. *)
Definition identifier_nl (s : str) : Prop :=
  exists c r nl, s = c :: r ++ nl /\ ascii_letter_char c = true /\ all isword r
                 /\ (nl = [] \/ nl = [10]).
(** Optional white space and a dot. *)
Definition dotted (s : str) : Prop := exists w r, s = w ++ 46 :: r /\ blanks w.
(** An ellipsis followed only by white space. *)
Definition ellipsis_text (s : str) : Prop := exists w, s = 8230 :: w /\ blanks w.

Definition valid_label (s : str) : Prop := identifier_nl s \/ dotted s \/ ellipsis_text s.

(** A letter followed by word characters. *)
Definition identifier (s : str) : Prop :=
  exists c r, s = c :: r /\ ascii_letter_char c = true /\ all isword r.
(** A lower-case letter followed by a-z, 0-9, _ *)
Definition c_lower (c : N) : bool := (97 <=? c) && (c <=? 122).
Definition c_ident_char (c : N) : bool := c_lower c || ((48 <=? c) && (c <=? 57)) || (c =? 95).
Definition c_identifier (s : str) : Prop :=
  exists c r, s = c :: r /\ c_lower c = true /\ all c_ident_char r.

(** A separator of words in a label. *)
Definition sep_char (c : N) : bool := isspace c || (c =? 45) || (c =? 47) || (c =? 95).
(** No two separators next to each other. *)
Definition sparse (s : str) : Prop :=
  forall a x y b, s = a ++ x :: y :: b -> sep_char x = true -> sep_char y = false.

(** Neither end is white space. *)
Definition trimmed (s : str) : Prop := ~ begins isspace s /\ ~ begins isspace (rev s).

(** The words of a text: maximal runs of characters that are not white space. *)
Inductive words_of : str -> list str -> Prop :=
| wo_end w : blanks w -> words_of w []
| wo_word w u rest us :
    blanks w -> u <> [] -> all (fun c => negb (isspace c)) u -> ~ begins (fun c => negb (isspace c)) rest ->
    words_of rest us -> words_of (w ++ u ++ rest) (u :: us).
Definition first_letters (us : list str) : str := flat_map (firstn 1) us.
