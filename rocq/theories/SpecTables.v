(** Independent vocabulary for the property that every table of a docx document is rendered
    exactly once. *)
From Coq Require Import NArith ZArith List Bool String.
From Verif Require Import PyStr Xml Docx Render SpecQuery SpecGrid SpecHtml.
Import ListNotations.
Local Open Scope string_scope.
Local Open Scope list_scope.

(** The w:tc elements of a w:tbl, row by row. *)
Definition table_cells (tbl : welem) : list welem := flat_map (w_children "w:tc") (w_children "w:tr" tbl).
(** A cell with a place of its own: it does not continue the one above and spans a column. *)
Definition own_place (tc : welem) : bool :=
  match cell_vertical_merge tc with DOk VMerged => false | _ => true end
  && match tc_grid_span tc with DOk n => (1 <=? n)%Z | _ => false end.
(** The tables that are direct children of such a cell, in order. *)
Definition nested_tables (tbl : welem) : list welem := flat_map (w_children "w:tbl") (filter own_place (table_cells tbl)).

(** Tables with the tables shown in their cells. *)
Inductive ttree := Node (tbl : welem) (nested : list ttree).
Definition troot (t : ttree) := let 'Node x _ := t in x.
(** The tables of a tree, each before those nested in it. *)
Fixpoint tree_tables (t : ttree) : list welem := match t with Node x l => x :: flat_map tree_tables l end.

(** How the tables of the document are nested: every table with those in its own cells. *)
Inductive table_tree : welem -> ttree -> Prop :=
| tt_node x l : Forall2 table_tree (nested_tables x) l -> table_tree x (Node x l).

(** How the tables of what is rendered are nested; [of u x] says that [u] is what reading the
    w:tbl [x] gave.  Only cells at their origin are rendered. *)
Section Of.
Variable of : hunit -> welem -> Prop.
Inductive unit_trees : hunit -> list ttree -> Prop :=
| ut_par sps : unit_trees (HPar sps) []
| ut_list l its : unit_trees (HList l its) []
| ut_table wid id rows x l : of (HTable wid id rows) x -> rows_trees 0 rows l -> unit_trees (HTable wid id rows) [Node x l]
with rows_trees : Z -> list (list tcell) -> list ttree -> Prop :=
| rwt_nil y : rows_trees y [] []
| rwt_cons y row rows a b : cells_trees y 0 row a -> rows_trees (y + 1) rows b -> rows_trees y (row :: rows) (a ++ b)
with cells_trees : Z -> Z -> list tcell -> list ttree -> Prop :=
| clt_nil y x : cells_trees y x [] []
| clt_skip y x t ts a : tc_origin t <> (x, y) -> cells_trees y (x + 1) ts a -> cells_trees y x (t :: ts) a
| clt_cell y x t ts a b : tc_origin t = (x, y) -> units_trees (tc_elems t) a -> cells_trees y (x + 1) ts b -> cells_trees y x (t :: ts) (a ++ b)
with units_trees : list hunit -> list ttree -> Prop :=
| uts_nil : units_trees [] []
| uts_cons u us a b : unit_trees u a -> units_trees us b -> units_trees (u :: us) (a ++ b).
End Of.

(** [u] is what reading the table [x] gave at some point. *)
Definition read_as (d : docx) (u : hunit) (x : welem) : Prop :=
  exists fuel s s', parse_table (parse_any d fuel) x s = DOk (Some u, s').

(** The table elements below an element, in document order. *)
Fixpoint table_elems (e : elem) : list elem :=
  match e with
  | Elem t a x ks => (if seqb t (utf8 "table") then [e] else []) ++ flat_map (fun k => table_elems (fst k)) ks
  end.
(** The element [e] renders the w:tbl [x]. *)
Definition renders (d : docx) (txt_rules cell_rules : list (str * list (str * str))) (x : welem) (e : elem) : Prop :=
  exists u, read_as d u x /\ shows txt_rules cell_rules u e.

(** The table elements in the contents of an element that are in no other of them. *)
Fixpoint outer_tables (e : elem) : list elem :=
  match e with Elem t _ _ ks => if seqb t (utf8 "table") then [e] else flat_map (fun k => outer_tables (fst k)) ks end.
Definition inner_tables (e : elem) : list elem := flat_map (fun k => outer_tables (fst k)) (e_kids e).
(** The element shows the table and, in the same order, those nested in it. *)
Inductive tree_shown (d : docx) (txt_rules cell_rules : list (str * list (str * str))) : ttree -> elem -> Prop :=
| ts_node x l e : renders d txt_rules cell_rules x e -> Forall2 (tree_shown d txt_rules cell_rules) l (inner_tables e) ->
    tree_shown d txt_rules cell_rules (Node x l) e.

(** No cell has a negative span, and the elements are told apart by their numbers. *)
Definition spans_ok (d : docx) : Prop :=
  forall x tc n, In x (w_all "w:tbl" (dx_body d)) -> In tc (table_cells x) -> spans_columns tc n -> (0 <= n)%Z.
Definition distinct (d : docx) : Prop := NoDup (map w_id (dx_body d :: below (dx_body d))).
(** A table with a place in a cell of another. *)
Definition in_place (d : docx) (x : welem) : Prop := exists y, In y (w_all "w:tbl" (dx_body d)) /\ In x (nested_tables y).
