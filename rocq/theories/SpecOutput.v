(** Independent vocabulary for the properties about the JSON document and progress reports. *)
From Coq Require Import NArith ZArith List Bool String.
From Verif Require Import PyStr Xml Json Lint Extract Document Output.
Import ListNotations.
Local Open Scope list_scope.
Local Open Scope N_scope.

(** The value of a meta key of a document; its lint list. *)
Definition meta_value (d : model) (k : string) : option json := jget (utf8 k) (mo_meta d).
Definition lint_list (d : model) : list json :=
  match meta_value d "lint" with Some (JList l) => l | _ => [] end.

(** The entry [j] has one of the codes. *)
Definition has_code (cs : list code) (j : json) : Prop :=
  exists c l, In c cs /\ j = JObj l /\ jget (utf8 "code") l = Some (JStr (code_name c)).

(** [l'] is [l] without the elements with property [Q], in order. *)
Inductive without {A} (Q : A -> Prop) : list A -> list A -> Prop :=
| wo_nil : without Q [] []
| wo_drop a l l' : Q a -> without Q l l' -> without Q (a :: l) l'
| wo_keep a l l' : ~ Q a -> without Q l l' -> without Q (a :: l) (a :: l').

(** The documents agree except for the lint list. *)
Definition same_but_lint (d d' : model) : Prop :=
  mo_entities d = mo_entities d'
  /\ forall k, k <> utf8 "lint" -> jget k (mo_meta d) = jget k (mo_meta d').

(** The first attribute [a] among the meta elements of the head of an HTML tree. *)
Definition first_attr (root : elem) (a : string) (v : str) : Prop :=
  exists A m B, flat_map (children (utf8 "meta")) (children (utf8 "head") root) = A ++ m :: B
    /\ attr (utf8 a) m = Some v /\ Forall (fun m => attr (utf8 a) m = None) A.
Definition no_attr (root : elem) (a : string) : Prop :=
  forall h m, In h (children (utf8 "head") root) -> In m (children (utf8 "meta") h) -> attr (utf8 a) m = None.

(** The HTML file of an input: for a docx file the one made from it, if that succeeds. *)
Definition html_of (i : input) : source := match i with Html s => s | Docx _ _ _ s => s end.
Definition converted (i : input) : Prop := match i with Html _ => True | Docx _ _ raised _ => raised = false end.

(** The reports of a phase. *)
Definition of_phase (p : phase) (l : list report) : list report :=
  filter (fun r => match fst (fst r), p with PHtml, PHtml | PJson, PJson => true | _, _ => false end) l.
(** 0, 1, ..., n-1 *)
Definition upto (n : nat) : list N := map N.of_nat (seq 0 n).

(** The number of entities that are not nested in another figure. *)
Definition top_level (es : list event) : nat :=
  List.length (filter (fun e => match m_parent (en_meta e) with None => true | Some _ => false end) (ents_of es)).
