(** Specification: docx documents between which the program makes no difference. *)
From Coq Require Import NArith ZArith List Bool String.
From Verif Require Import PyStr Docx Disk SpecElem SpecDisk.
Import ListNotations.
Local Open Scope string_scope.
Local Open Scope list_scope.

(** The elements that are read: of the document, the styles and the numbering. *)
Definition elements_read : list string :=
  [ "w:tbl"; "w:tr"; "w:tc"; "w:tcPr"; "w:gridSpan"; "w:vMerge"; "w:shd";
    "w:p"; "w:pPr"; "w:numPr"; "w:numId"; "w:ilvl"; "w:r"; "w:hyperlink"; "w:fldSimple"; "w:t";
    "w:rPr"; "w:b"; "w:i"; "w:u"; "w:strike"; "w:vertAlign"; "w:color"; "w:rStyle";
    "w:style"; "w:aliases"; "w:basedOn";
    "w:abstractNum"; "w:lvl"; "w:numFmt"; "w:lvlText"; "w:num"; "w:abstractNumId" ].
(** The attributes that are read. *)
Definition attributes_read : list string :=
  [ "w:val"; "w:fill"; "w:type"; "w:styleId"; "w:ilvl"; "w:numId"; "w:abstractNumId" ].

(** An element that is not read, and in which no table is: a bookmark, a mark of the spelling
    checker, a page break, a section, ... *)
Definition unread (e : welem) : Prop :=
  ~ In (w_tag e) (map utf8 elements_read) /\ Forall (fun x => w_tag x <> utf8 "w:tbl") (below e).

Definition same_read (a a' : list (str * str)) : Prop :=
  forall n o, In n attributes_read -> valued (utf8 n) a o <-> valued (utf8 n) a' o.

(** The same element, but for attributes that are not read, texts that are not in a w:t, and
    elements that are not read: these may be others, more or fewer.  In a cell each of them may
    be another one only. *)
Inductive resaved : welem -> welem -> Prop :=
| rs_elem i i' t a a' x x' ks ks' :
    (t = utf8 "w:tbl" -> i = i') -> same_read a a' -> (t = utf8 "w:t" -> x = x') ->
    resaved_in t ks ks' -> resaved (W i t a x ks) (W i' t a' x' ks')
with resaved_in : str -> list welem -> list welem -> Prop :=
| ri_end t : resaved_in t [] []
| ri_same t k k' ks ks' : resaved k k' -> resaved_in t ks ks' -> resaved_in t (k :: ks) (k' :: ks')
| ri_other t k k' ks ks' : unread k -> unread k' -> resaved_in t ks ks' -> resaved_in t (k :: ks) (k' :: ks')
| ri_fewer t k ks ks' : t <> utf8 "w:tc" -> unread k -> resaved_in t ks ks' -> resaved_in t (k :: ks) ks'
| ri_more t k' ks ks' : t <> utf8 "w:tc" -> unread k' -> resaved_in t ks ks' -> resaved_in t ks (k' :: ks').

Definition both {A} (R : A -> A -> Prop) (o o' : option A) : Prop :=
  match o, o' with Some a, Some a' => R a a' | None, None => True | _, _ => False end.
(** docx files: of the header only the text is read. *)
Definition resaved_package (p p' : package) : Prop :=
  both resaved (pk_document p) (pk_document p') /\ both resaved (pk_numbering p) (pk_numbering p')
  /\ both resaved (pk_styles p) (pk_styles p')
  /\ both (fun h h' => forall s, joined (below h) s <-> joined (below h') s) (pk_header p) (pk_header p').
(** Disks on which the inputs are the same, but for docx files saved again. *)
Definition resaved_inputs (ins : list path) (d d' : disk) : Prop :=
  forall p, In p ins -> d p = d' p \/ exists pk pk', d p = Some (Package pk) /\ d' p = Some (Package pk') /\ resaved_package pk pk'.

(** A document without all that is not read (in cells, the elements are emptied). *)
Definition tag_read (e : welem) : bool := existsb (fun t => seqb (w_tag e) (utf8 t)) elements_read.
Definition has_table (e : welem) : bool := existsb (is_tag "w:tbl") (below e).
Fixpoint cleaned (e : welem) : welem :=
  match e with
  | W i t a x ks =>
      W i t (filter (fun p => existsb (fun n => seqb (fst p) (utf8 n)) attributes_read) a)
        (if seqb t (utf8 "w:t") then x else None)
        (flat_map (fun k => if tag_read k || has_table k then [cleaned k]
                            else if seqb t (utf8 "w:tc") then [W 0%N (utf8 "w:unread") [] None []] else []) ks)
  end.
