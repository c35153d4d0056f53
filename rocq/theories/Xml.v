(** lxml elements and the XPath queries used by /repo.
    Not modelled: comments, processing instructions, namespaces, entity handling. *)
From Coq Require Import NArith List Bool String.
From Verif Require Import PyStr.
Import ListNotations.
Local Open Scope N_scope.

(** An element: tag, attributes, text before the first child, and the children each with
    its tail text (lxml's data model). *)
Inductive elem := Elem (tag : str) (attrs : list (str * str)) (text : str)
                       (kids : list (elem * str)).

Definition kid := (elem * str)%type.

Definition e_tag (e : elem) := let 'Elem t _ _ _ := e in t.
Definition e_attrs (e : elem) := let 'Elem _ a _ _ := e in a.
Definition e_text (e : elem) := let 'Elem _ _ x _ := e in x.
Definition e_kids (e : elem) := let 'Elem _ _ _ k := e in k.

(** Number of elements of a tree (measure for recursion). *)
Fixpoint esize (e : elem) : nat :=
  match e with Elem _ _ _ ks => S (list_sum (map (fun k => esize (fst k)) ks)) end.

(** Tag and attribute names. *)
Definition t_table : str := Eval compute in utf8 "table".
Definition t_tr : str := Eval compute in utf8 "tr".
Definition t_td : str := Eval compute in utf8 "td".
Definition t_th : str := Eval compute in utf8 "th".
Definition t_p : str := Eval compute in utf8 "p".
Definition t_body : str := Eval compute in utf8 "body".
Definition t_head : str := Eval compute in utf8 "head".
Definition t_meta : str := Eval compute in utf8 "meta".
Definition a_rowspan : str := Eval compute in utf8 "rowspan".
Definition a_colspan : str := Eval compute in utf8 "colspan".

(** [e.get(a)] *)
Definition attr (a : str) (e : elem) : option str :=
  match find (fun p => seqb (fst p) a) (e_attrs e) with
  | Some p => Some (snd p)
  | None => None
  end.

(** [del e.attrib[a]] on a copy of [e]. *)
Definition del_attr (a : str) (e : elem) : elem :=
  Elem (e_tag e) (filter (fun p => negb (seqb (fst p) a)) (e_attrs e)) (e_text e) (e_kids e).

(** ["".join(e.itertext())] *)
Fixpoint itertext (e : elem) : str :=
  match e with
  | Elem _ _ x ks => x ++ flat_map (fun k => itertext (fst k) ++ snd k) ks
  end.

(** src/spex/xml.py:37-47, XmlUtils.to_text *)
Definition to_text (e : elem) : str := strip (itertext e).

(** Child elements with a given tag, with their tails: the query ./tag *)
Definition kids_of (t : str) (e : elem) : list kid :=
  filter (fun k => seqb (e_tag (fst k)) t) (e_kids e).

(** src/spex/xml.py:51-71, Xpath.elems(e, "./tag") *)
Definition children (t : str) (e : elem) : list elem := map fst (kids_of t e).

(** src/spex/xml.py:73-76, Xpath.elem_first(e, "./tag[n+1]") *)
Definition nth_child (t : str) (n : nat) (e : elem) : option elem :=
  nth_error (children t e) n.

(** src/spex/jsonspec/queries.py:16-18, contains_th *)
Definition contains_th (e : elem) : bool :=
  match children t_th e with [] => false | _ => true end.

(** src/spex/jsonspec/queries.py:11-13, find_colspan: query "./*[@colspan]/*" *)
Definition find_colspan (row : elem) : list elem :=
  flat_map (fun k => match attr a_colspan (fst k) with
                     | Some _ => map fst (e_kids (fst k))
                     | None => []
                     end) (e_kids row).

(** src/spex/jsonspec/queries.py:21-26, extract_possible_colspan.  [None] and the empty
    text are both "falsy" for the only caller, so the text alone is returned. *)
Definition extract_possible_colspan (row : elem) : str :=
  flat_map to_text (find_colspan row).
