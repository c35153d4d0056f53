(** Specification: documents that differ only in formatting. *)
From Coq Require Import NArith List String.
From Verif Require Import PyStr Xml SpecElem Output.
Import ListNotations.

(** The elements whose place in the document is looked at; inside any other element (a
    paragraph, say) only the text counts. *)
Definition structural : list str :=
  map utf8 ["html"%string; "head"%string; "meta"%string; "body"%string; "table"%string; "tr"%string; "td"%string; "th"%string].
(** The attributes that are looked at. *)
Definition looked_at : list str :=
  map utf8 ["rowspan"%string; "colspan"%string; "data-spec"%string; "data-revision"%string].

(** The same values of the attributes that are looked at; all others may differ. *)
Definition same_values (a a' : list (str * str)) : Prop :=
  forall n o, In n looked_at -> valued n a o <-> valued n a' o.

(** Two elements that differ at most in attributes that are not looked at and in the elements
    (of formatting) into which the text of a paragraph is divided. *)
Inductive alike : elem -> elem -> Prop :=
| al_text t a a' x x' ks ks' :
    ~ In t structural -> same_values a a' -> valued a_colspan a None ->
    whole_text (Elem t a x ks) = whole_text (Elem t a' x' ks') ->
    alike (Elem t a x ks) (Elem t a' x' ks')
| al_node t a a' x ks ks' :
    same_values a a' -> Forall2 (fun k k' => alike (fst k) (fst k') /\ snd k = snd k') ks ks' ->
    alike (Elem t a x ks) (Elem t a' x ks').

(** Two inputs that are alike. *)
Inductive sources_alike : source -> source -> Prop :=
| sa_bad : sources_alike Unreadable Unreadable
| sa_tree r r' : e_tag r = utf8 "html" -> alike r r' -> sources_alike (Tree r) (Tree r').
Inductive inputs_alike : input -> input -> Prop :=
| ia_html s s' : sources_alike s s' -> inputs_alike (Html s) (Html s')
| ia_docx n is r s s' : sources_alike s s' -> inputs_alike (Docx n is r s) (Docx n is r s').

(** The tables that stand directly in the body of a document, in order. *)
Definition body_tables (root : elem) (ts : list elem) : Prop :=
  exists bs tss, picked (utf8 "body") (e_kids root) bs
    /\ Forall2 (fun b ts => picked (utf8 "table") (e_kids b) ts) bs tss /\ ts = List.concat tss.

(** The document without the attributes that are not looked at. *)
Fixpoint bare (e : elem) : elem :=
  match e with
  | Elem t a x ks => Elem t (filter (fun p => if in_dec (list_eq_dec N.eq_dec) (fst p) looked_at then true else false) a) x
                       (map (fun k => (bare (fst k), snd k)) ks)
  end.
(** The document with every paragraph without formatting: its text only. *)
Fixpoint unformatted (e : elem) : elem :=
  match e with
  | Elem t a x ks =>
      if list_eq_dec N.eq_dec t (utf8 "p")
      then match find (fun p => if list_eq_dec N.eq_dec (fst p) (utf8 "colspan") then true else false) a with
           | None => Elem t a (whole_text e) []
           | Some _ => e
           end
      else Elem t a x (map (fun k => (unformatted (fst k), snd k)) ks)
  end.
