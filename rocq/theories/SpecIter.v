(** Independent vocabulary: the rows of any table, whether or not its spans fit together. *)
From Coq Require Import ZArith List Bool.
From Verif Require Import PyStr Xml RowIter.
Import ListNotations.
Local Open Scope Z_scope.

(** A span attribute: the integer it writes down, one if it is missing. *)
Definition spans (a : str) (td : kid) (n : Z) : Prop :=
  match attr a (fst td) with None => n = 1 | Some s => py_int s = Some n end.

(** The rows of a table with at least one cell, each with the elements that follow it. *)
Inductive cell_rows : list kid -> list yrow -> Prop :=
| cr_end : cell_rows [] []
| cr_row tr sibs ys :
    e_tag (fst tr) = t_tr -> children t_td (fst tr) <> [] \/ children t_th (fst tr) <> [] ->
    cell_rows sibs ys -> cell_rows (tr :: sibs) (mkY (fst tr) sibs :: ys)
| cr_other k sibs ys :
    e_tag (fst k) <> t_tr \/ (children t_td (fst k) = [] /\ children t_th (fst k) = []) ->
    cell_rows sibs ys -> cell_rows (k :: sibs) ys.

(** A cell that reaches into the rows below: its column, the cell, the number of rows. *)
Definition reaching := (Z * kid * Z)%type.
Definition column (r : reaching) : Z := fst (fst r).

(** The cells of a row from column [c] on: its own cells, and each cell that reaches into the
    row at its column.  After the last own cell the cells still to come are added: the first
    of them only if it is at its column, the others wherever the row has got to. *)
Inductive filled : Z -> list kid -> list (Z * kid) -> list kid -> Prop :=
| fi_reaching c td own k w rest out :
    spans a_colspan k w -> filled (c + w) (td :: own) rest out -> filled c (td :: own) ((c, k) :: rest) (k :: out)
| fi_own c td own w rest out :
    (forall k r, rest <> (c, k) :: r) -> spans a_colspan td w -> filled (c + w) own rest out ->
    filled c (td :: own) rest (td :: out)
| fi_end c : filled c [] [] []
| fi_end_at c k rest : filled c [] ((c, k) :: rest) (k :: map snd rest)
| fi_end_off c d k rest : d <> c -> filled c [] ((d, k) :: rest) (map snd rest).
(** The row as it is given: as it stands if no cell reaches into it. *)
Definition row_shown (rs : list reaching) (y y' : yrow) : Prop :=
  rs = [] /\ y' = y
  \/ rs <> [] /\ exists tds, filled 0 (kids_of t_td (y_row y)) (map fst rs) tds
                  /\ y' = mkY (Elem (e_tag (y_row y)) (e_attrs (y_row y)) [] tds) [].

(** Cells are kept by column, a new one after those of the same column. *)
Inductive kept (r : reaching) : list reaching -> list reaching -> Prop :=
| ke_here l : (forall x l', l = x :: l' -> column r < column x) -> kept r l (r :: l)
| ke_later x l l' : column x <= column r -> kept r l l' -> kept r (x :: l) (x :: l').
(** The cells of the row given that reach further down are kept, without their rowspan. *)
Inductive reach_down : Z -> list kid -> list reaching -> list reaching -> Prop :=
| rd_end c rs : reach_down c [] rs rs
| rd_one c td tds h w rs rs' :
    spans a_rowspan td h -> h <= 1 -> spans a_colspan td w -> reach_down (c + w) tds rs rs' ->
    reach_down c (td :: tds) rs rs'
| rd_more c td tds h w rs rs1 rs' :
    spans a_rowspan td h -> 1 < h -> kept (c, (del_attr a_rowspan (fst td), snd td), h) rs rs1 ->
    spans a_colspan td w -> reach_down (c + w) tds rs1 rs' -> reach_down c (td :: tds) rs rs'.
(** One row further down: one row less to reach into. *)
Inductive one_less : list reaching -> list reaching -> Prop :=
| ol_end : one_less [] []
| ol_done c k n rs rs' : n <= 1 -> one_less rs rs' -> one_less ((c, k, n) :: rs) rs'
| ol_more c k n rs rs' : 1 < n -> one_less rs rs' -> one_less ((c, k, n) :: rs) ((c, k, n - 1) :: rs').
(** A row and what reaches into the row after it. *)
Definition row_step (rs : list reaching) (y y' : yrow) (rs' : list reaching) : Prop :=
  exists rs1, row_shown rs y y' /\ reach_down 0 (kids_of t_td (y_row y')) rs rs1 /\ one_less rs1 rs'.

(** All rows.  Rows with header cells are given as they are and do not count.  [false]: a row
    that cannot be made up, because a span is not an integer, ends it. *)
Inductive rows_shown : list reaching -> list yrow -> list yrow -> bool -> Prop :=
| rs_end rs : rows_shown rs [] [] true
| rs_header rs y rest ys ok :
    children t_th (y_row y) <> [] -> rows_shown rs rest ys ok -> rows_shown rs (y :: rest) (y :: ys) ok
| rs_row rs y y' rs' rest ys ok :
    children t_th (y_row y) = [] -> row_step rs y y' rs' -> rows_shown rs' rest ys ok ->
    rows_shown rs (y :: rest) (y' :: ys) ok
| rs_fail rs y rest :
    children t_th (y_row y) = [] -> (forall y' rs', ~ row_step rs y y' rs') -> rows_shown rs (y :: rest) [] false.

Definition table_rows (tbl : elem) (ys : list yrow) (ok : bool) : Prop :=
  exists trs, cell_rows (e_kids tbl) trs /\ rows_shown [] trs ys ok.

(** ** What follows for any table *)

(** The rows of a table with at least one cell. *)
Definition with_cells (tbl : elem) (trs : list elem) : Prop := exists ys, cell_rows (e_kids tbl) ys /\ trs = map y_row ys.
(** The cells of rows without header cells. *)
Definition data_cells (trs : list elem) (td : kid) : Prop :=
  exists tr, In tr trs /\ children t_th tr = [] /\ In td (kids_of t_td tr).
(** Both spans of a cell are missing or integers. *)
Definition spans_ok (td : kid) : Prop := (exists n, spans a_rowspan td n) /\ exists n, spans a_colspan td n.
(** A cell repeated in a row below: without its rowspan. *)
Definition repeated (td k : kid) : Prop := k = (del_attr a_rowspan (fst td), snd td).
(** The elements of a list among others. *)
Inductive among {A} (other : A -> Prop) : list A -> list A -> Prop :=
| am_end : among other [] []
| am_own x l m : among other l m -> among other (x :: l) (x :: m)
| am_other x l m : other x -> among other l m -> among other l (x :: m).
