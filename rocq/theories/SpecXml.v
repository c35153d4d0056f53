(** Independent vocabulary: reading the characters of a file as XML (https://www.w3.org/TR/xml/). *)
From Coq Require Import NArith ZArith List Bool String.
From Verif Require Import PyStr Xml Docx SpecFmt.
Import ListNotations.
Local Open Scope string_scope.
Local Open Scope list_scope.
Local Open Scope N_scope.

(** Section 2.2: the characters of XML. *)
Definition xml_char (c : N) : Prop :=
  c = 9 \/ c = 10 \/ c = 13 \/ 32 <= c <= 55295 \/ 57344 <= c <= 65533 \/ 65536 <= c <= 1114111.
(** 2.3: white space and names; of the names, the ones in ASCII. *)
Definition xml_space (c : N) : Prop := c = 32 \/ c = 9 \/ c = 10 \/ c = 13.
Definition spaces (s : str) : Prop := Forall xml_space s.
Definition name_start (c : N) : Prop := 97 <= c <= 122 \/ 65 <= c <= 90 \/ c = 58 \/ c = 95.
Definition name_char (c : N) : Prop := name_start c \/ 48 <= c <= 57 \/ c = 45 \/ c = 46.
Definition xname (s : str) : Prop := exists c r, s = c :: r /\ name_start c /\ Forall name_char r.

Definition not_lf (s : str) : Prop := match s with c :: _ => c <> 10 | [] => True end.

(** 3.3.3: an attribute value between quotes [q], as written and as read: white space is read as
    spaces. *)
Inductive xvalue (q : N) : str -> str -> Prop :=
| xv_nil : xvalue q [] []
| xv_char c s v : xml_char c -> ~ xml_space c -> c <> q -> c <> 38 -> c <> 60 -> xvalue q s v -> xvalue q (c :: s) (c :: v)
| xv_space c s v : xml_space c -> c <> 13 -> xvalue q s v -> xvalue q (c :: s) (32 :: v)
| xv_cr s v : not_lf s -> xvalue q s v -> xvalue q (13 :: s) (32 :: v)
| xv_crlf s v : xvalue q s v -> xvalue q (13 :: 10 :: s) (32 :: v)
| xv_ref n c s v : In (n, c) references -> xvalue q s v -> xvalue q (n ++ s) (c :: v).
(** 3.1: attributes *)
Inductive xattrs : str -> list (str * str) -> Prop :=
| xa_nil : xattrs [] []
| xa_cons b n b1 b2 q w v s l : b <> [] -> spaces b -> xname n -> spaces b1 -> spaces b2 -> q = 34 \/ q = 39 ->
    xvalue q w v -> xattrs s l -> xattrs (b ++ n ++ b1 ++ [61] ++ b2 ++ [q] ++ w ++ [q] ++ s) ((n, v) :: l).
(** 2.4, 2.11, 3.1: what is between two tags: the text before the first element, and the
    elements, each with the text following it.  Line ends are read as line feeds.  Without
    comments, CDATA sections and processing instructions. *)
Inductive xcontent : str -> str -> list kid -> Prop :=
| xc_nil : xcontent [] [] []
| xc_char c s x ks : xml_char c -> c <> 13 -> c <> 38 -> c <> 60 -> xcontent s x ks -> xcontent (c :: s) (c :: x) ks
| xc_cr s x ks : not_lf s -> xcontent s x ks -> xcontent (13 :: s) (10 :: x) ks
| xc_crlf s x ks : xcontent s x ks -> xcontent (13 :: 10 :: s) (10 :: x) ks
| xc_ref n c s x ks : In (n, c) references -> xcontent s x ks -> xcontent (n ++ s) (c :: x) ks
| xc_void tag w a b s x ks : xname tag -> xattrs w a -> NoDup (map fst a) -> spaces b -> xcontent s x ks ->
    xcontent ([60] ++ tag ++ w ++ b ++ [47; 62] ++ s) [] ((Elem tag a [] [], x) :: ks)
| xc_elem tag w a b body bx bks b' s x ks : xname tag -> xattrs w a -> NoDup (map fst a) -> spaces b ->
    xcontent body bx bks -> spaces b' -> xcontent s x ks ->
    xcontent ([60] ++ tag ++ w ++ b ++ [62] ++ body ++ [60; 47] ++ tag ++ b' ++ [62] ++ s) [] ((Elem tag a bx bks, x) :: ks).
(** 2.1, 2.8: a document with a document type of just a name. *)
Definition xdocument (s : str) (root : elem) : Prop :=
  exists b1 n b2 b3 t b4, s = utf8 "<!DOCTYPE" ++ b1 ++ n ++ b2 ++ [62] ++ b3 ++ t ++ b4
    /\ b1 <> [] /\ spaces b1 /\ xname n /\ spaces b2 /\ spaces b3 /\ spaces b4 /\ xcontent t [] [(root, [])].
