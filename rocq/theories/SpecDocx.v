(** Independent vocabulary for the properties about docx documents: numberings and the document written for them. *)
From Coq Require Import NArith ZArith List Bool String.
From Verif Require Export SpecQuery SpecRuns.
From Verif Require Import PyStr Xml Docx SpecFmt SpecHtml Render.
Import ListNotations.
Local Open Scope string_scope.
Local Open Scope list_scope.
Local Open Scope N_scope.

(** ** Numberings *)

(** The number of a w:num and of a w:abstractNum. *)
Definition num_number (e : welem) (z : Z) : Prop := exists s, w_attr "w:numId" e = Some s /\ py_int s = Some z.
Definition abs_number (e : welem) (z : Z) : Prop := exists s, w_attr "w:abstractNumId" e = Some s /\ py_int s = Some z.
(** The abstract numbering a w:num refers to. *)
Definition num_refers (e : welem) (z : Z) : Prop := exists s, child_value "w:abstractNumId" "w:val" e s /\ py_int s = Some z.
(** The properties a w:lvl of the abstract numbering [a] gives. *)
Definition lvl_reads (a : Z) (e : welem) (l : lvl) : Prop :=
  v_abs l = a /\ (exists s, w_attr "w:ilvl" e = Some s /\ py_int s = Some (v_ilvl l))
  /\ child_value "w:numFmt" "w:val" e (v_fmt l) /\ child_value "w:lvlText" "w:val" e (v_txt l).

(** ** The HTML document *)

(** Text that stands for itself in XML, also within attributes. *)
Definition plain (s : str) : Prop := Forall (fun c => c <> 34 /\ c <> 38 /\ c <> 60 /\ c <> 62 /\ c <> 9 /\ c <> 10 /\ c <> 13) s.
(** What the document written for [us] is: the header's title and revision as attributes, and
    the units in its body. *)
Definition document_shows (txt_rules cell_rules : list (str * list (str * str))) (version fname title : str) (revision : option str)
    (us : list hunit) (root : elem) : Prop :=
  exists xh xb x1 t1 t2 t3 t4 t5 t6 ks,
    root = Elem (utf8 "html") [(utf8 "lang", utf8 "en")] xh
      [(Elem (utf8 "head") [] x1
          [(Elem (utf8 "meta") ([(utf8 "charset", utf8 "utf-8"); (utf8 "data-spec", title)]
              ++ match revision with Some r => [(utf8 "data-revision", r)] | None => [] end) [] [], t1);
           (Elem (utf8 "meta") [(utf8 "name", utf8 "spexVersion"); (utf8 "content", version)] [] [], t2);
           (Elem (utf8 "title") [] fname [], t3);
           (Elem (utf8 "link") [(utf8 "rel", utf8 "stylesheet"); (utf8 "href", fname ++ utf8 ".css")] [] [], t4)], t5);
       (Elem (utf8 "body") [] xb ks, t6)]
    /\ Forall blank [xh; xb; x1; t1; t2; t3; t4; t5; t6]
    /\ units_show txt_rules cell_rules us ks.
