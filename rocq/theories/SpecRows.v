(** Independent vocabulary for the properties about table rows and spans. *)
From Coq Require Import ZArith List Bool Sorting.Sorted.
From Verif Require Import PyStr Xml RowIter.
Import ListNotations.
Local Open Scope Z_scope.

(** A cell placed on a grid: its top row, left column, height, width and td element (with the
    text following it). *)
Record cell := mkCell { c_row : Z; c_col : Z; c_h : Z; c_w : Z; c_td : kid }.

(** The cell begins in row [r]; covers row [r]; covers position ([r], [c]). *)
Definition starts_in (r : Z) (p : cell) : bool := c_row p =? r.
Definition covers_row (r : Z) (p : cell) : bool := (c_row p <=? r) && (r <? c_row p + c_h p).
Definition covers_pos (r c : Z) (p : cell) : bool :=
  covers_row r p && (c_col p <=? c) && (c <? c_col p + c_w p).

(** [cs] tiles [R] rows of [W] columns: every position is covered by exactly one cell, no
    cell begins outside or sticks out to the right, and the cells are listed by column. *)
Definition tiling (R W : Z) (cs : list cell) : Prop :=
  (forall p, In p cs -> 0 <= c_row p < R /\ 0 <= c_col p /\ 1 <= c_h p /\ 1 <= c_w p /\ c_col p + c_w p <= W)
  /\ (forall r c, 0 <= r < R -> 0 <= c < W -> exists p, filter (covers_pos r c) cs = [p])
  /\ StronglySorted (fun p q => c_col p <= c_col q) cs.

(** The attributes of the td element say how far the cell reaches. *)
Definition attributes_agree (p : cell) : Prop :=
  span_attr a_rowspan (fst (c_td p)) = Some (c_h p)
  /\ span_attr a_colspan (fst (c_td p)) = Some (c_w p).

(** The rows [trs] write down the cells [cs]: row number i has exactly the cells that begin
    in row i, left to right, at least one, and no header cell. *)
Definition writes (trs : list elem) (cs : list cell) : Prop :=
  forall i tr, nth_error trs i = Some tr ->
    children t_th tr = []
    /\ kids_of t_td tr = map c_td (filter (starts_in (Z.of_nat i)) cs)
    /\ kids_of t_td tr <> [].

(** A cell as shown in row [r]: in its own row as it is; in the rows below it, a copy without
    the rowspan attribute. *)
Definition shown (r : Z) (p : cell) : kid :=
  if starts_in r p then c_td p else (del_attr a_rowspan (fst (c_td p)), snd (c_td p)).

(** A row with a cell (td or th). *)
Definition has_cell (tr : elem) : bool :=
  match children t_td tr, children t_th tr with [], [] => false | _, _ => true end.

(** What iterating the rows of a table gives: the rows, and the error that ended it. *)
Definition rows_of (tbl : elem) : list elem * option Lint.exn :=
  let '(ys, e) := row_iter tbl in (map y_row ys, e).
