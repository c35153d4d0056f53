(** Independent vocabulary for queries to the XML parts of a docx document: first and last
    elements, children and paths. *)
From Coq Require Import NArith ZArith List Bool String.
From Verif Require Import PyStr Docx.
Import ListNotations.
Local Open Scope string_scope.
Local Open Scope list_scope.

(** [x] is the last element of [l] with [P]. *)
Definition last_with {A} (P : A -> Prop) (l : list A) (x : A) : Prop :=
  exists l1 l2, l = l1 ++ x :: l2 /\ P x /\ Forall (fun y => ~ P y) l2.
(** [x] is the first element of [l] with [P]. *)
Definition first_with {A} (P : A -> Prop) (l : list A) (x : A) : Prop :=
  exists l1 l2, l = l1 ++ x :: l2 /\ P x /\ Forall (fun y => ~ P y) l1.
(** The children of [e] with the tag [t]. *)
Definition child (t : string) (e x : welem) : Prop := In x (w_kids e) /\ w_tag x = utf8 t.
Definition first_child (t : string) (e x : welem) : Prop := first_with (fun y => w_tag y = utf8 t) (w_kids e) x.
(** The first attribute [a] of the children [t] of [e]. *)
Definition child_value (t a : string) (e : welem) (v : str) : Prop :=
  exists x, first_with (fun x => w_tag x = utf8 t /\ exists v, w_attr a x = Some v) (w_kids e) x /\ w_attr a x = Some v.

(** The first attribute [a] among those of the elements reached from [e] by the path [ts]
    (children with the first tag, their children with the second, ...). *)
Fixpoint first_value (ts : list string) (a : string) (e : welem) (v : str) : Prop :=
  match ts with
  | [] => w_attr a e = Some v
  | t :: ts => exists x, first_with (fun x => w_tag x = utf8 t /\ exists v, first_value ts a x v) (w_kids e) x
                         /\ first_value ts a x v
  end.
(** The first element reached from [e] by the path [ts]. *)
Fixpoint first_elem (ts : list string) (e x : welem) : Prop :=
  match ts with
  | [] => x = e
  | t :: ts => exists y, first_with (fun y => w_tag y = utf8 t /\ exists x, first_elem ts y x) (w_kids e) y
                         /\ first_elem ts y x
  end.
(** There is none. *)
Definition no_value (ts : list string) (a : string) (e : welem) : Prop := forall v, ~ first_value ts a e v.
Definition no_elem (ts : list string) (e : welem) : Prop := forall x, ~ first_elem ts e x.
(** The first such attribute is the number [z]. *)
Definition first_number (ts : list string) (a : string) (e : welem) (z : Z) : Prop :=
  exists s, first_value ts a e s /\ py_int s = Some z.
