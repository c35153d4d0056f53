(** Specification: the characters of an input document and of an encoding. *)
From Coq Require Import NArith List.
From Verif Require Import PyStr Xml Output.
Import ListNotations.
Local Open Scope N_scope.

(** The character stands in a text of the tree. *)
Inductive text_has (c : N) : elem -> Prop :=
| th_text t a x ks : In c x -> text_has c (Elem t a x ks)
| th_tail t a x ks k s : In (k, s) ks -> In c s -> text_has c (Elem t a x ks)
| th_kid t a x ks k s : In (k, s) ks -> text_has c k -> text_has c (Elem t a x ks).

(** The character stands in an attribute of an element of the tree. *)
Inductive attr_has (c : N) : elem -> Prop :=
| ah_here t a x ks n v : In (n, v) a -> In c v -> attr_has c (Elem t a x ks)
| ah_kid t a x ks k s : In (k, s) ks -> attr_has c k -> attr_has c (Elem t a x ks).

(** The HTML document of a run: the input itself, or the one the docx stage left. *)
Definition document_of (inp : input) (root : elem) : Prop :=
  inp = Html (Tree root) \/ exists n is r, inp = Docx n is r (Tree root).

(** The character stands in the document of the run. *)
Definition given (inp : input) (c : N) : Prop :=
  exists root, document_of inp root /\ (text_has c root \/ attr_has c root).

(** A character set that has ASCII, and with a letter has its capital and small forms
    ([str.upper] and [str.lower] of the character). *)
Definition charset (ok : N -> Prop) : Prop :=
  (forall c, c < 128 -> ok c)
  /\ (forall c d, ok c -> In d (upper_char c) -> ok d)
  /\ (forall c d, ok c -> In d (lower_char c) -> ok d).

(** ASCII, Latin-1 (ISO 8859-1), and what UTF-8 can encode: every code point but the
    surrogates. *)
Definition ascii (c : N) : Prop := c < 128.
Definition latin1 (c : N) : Prop := c < 256.
Definition unicode (c : N) : Prop := c < 1114112 /\ ~ (55296 <= c <= 57343).

(** Where a character of the output can come from: ASCII, the version of the program, the
    document, or a change of case of such a character. *)
Inductive derived (version : str) (inp : input) : N -> Prop :=
| d_ascii c : ascii c -> derived version inp c
| d_version c : In c version -> derived version inp c
| d_given c : given inp c -> derived version inp c
| d_upper c d : derived version inp c -> In d (upper_char c) -> derived version inp d
| d_lower c d : derived version inp c -> In d (lower_char c) -> derived version inp d.
