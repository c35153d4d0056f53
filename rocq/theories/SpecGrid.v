(** Independent vocabulary for the properties about the layout of docx tables. *)
From Coq Require Import NArith ZArith List Bool String.
From Verif Require Import PyStr Docx SpecQuery.
Import ListNotations.
Local Open Scope string_scope.
Local Open Scope list_scope.

(** A cell as it stands in the docx document: the w:tc element, how many columns it spans, and
    whether it continues the cell above it (w:vMerge without a value). *)
Record wcell := mkWc { wc_tc : welem; wc_span : nat; wc_cont : bool }.

(** The cells of a table, row by row. *)
(** How many columns a cell spans: what its w:gridSpan says, or one. *)
Definition spans_columns (tc : welem) (n : Z) : Prop :=
  first_number ["w:tcPr"; "w:gridSpan"] "w:val" tc n
  \/ (no_value ["w:tcPr"; "w:gridSpan"] "w:val" tc /\ n = 1%Z).
(** It continues the cell above: its w:vMerge has no value; it does not: it has no w:vMerge, or
    one that restarts. *)
Definition continues_above (tc : welem) : Prop :=
  exists m, first_elem ["w:tcPr"; "w:vMerge"] tc m /\ (w_attr "w:val" m = None \/ w_attr "w:val" m = Some []).
Definition begins_anew (tc : welem) : Prop :=
  no_elem ["w:tcPr"; "w:vMerge"] tc
  \/ exists m, first_elem ["w:tcPr"; "w:vMerge"] tc m /\ w_attr "w:val" m = Some (utf8 "restart").
Definition is_wcell (tc : welem) (c : wcell) : Prop :=
  wc_tc c = tc /\ (1 <= wc_span c)%nat /\ spans_columns tc (Z.of_nat (wc_span c))
  /\ if wc_cont c then continues_above tc else begins_anew tc.
Definition layout (tbl : welem) (rows : list (list wcell)) : Prop :=
  Forall2 (fun tr cs => Forall2 is_wcell (w_children "w:tc" tr) cs) (w_children "w:tr" tbl) rows.

(** The cell [c] of the row begins in column [x]. *)
Definition begins (row : list wcell) (x : nat) (c : wcell) : Prop :=
  exists A B, row = A ++ c :: B /\ x = list_sum (map wc_span A).

(** Every cell that continues one above has, in the row above, a cell of the same width that
    begins in the same column. *)
Definition aligned (rows : list (list wcell)) : Prop :=
  forall r row x c, nth_error rows r = Some row -> begins row x c -> wc_cont c = true ->
    exists r' up c', r = S r' /\ nth_error rows r' = Some up /\ begins up x c' /\ wc_span c' = wc_span c.

(** The w:tc element shown at row [r], column [x]: that of the cell there or, if it continues
    the one above, the one shown above. *)
Inductive shown_at (rows : list (list wcell)) : nat -> nat -> welem -> Prop :=
| sh_own r row x y c : nth_error rows r = Some row -> begins row y c -> (y <= x < y + wc_span c)%nat ->
    wc_cont c = false -> shown_at rows r x (wc_tc c)
| sh_above r row x y c tc : nth_error rows (S r) = Some row -> begins row y c -> (y <= x < y + wc_span c)%nat ->
    wc_cont c = true -> shown_at rows r x tc -> shown_at rows (S r) x tc.

(** The element at row [r], column [x] of a matrix. *)
Definition at_pos {A} (m : list (list A)) (r x : nat) : option A :=
  match nth_error m r with Some row => nth_error row x | None => None end.
(** The position is inside the extent of the cell. *)
Definition inside (r x : nat) (g : gcell) : Prop :=
  (g_top g <= Z.of_nat r <= g_bottom g)%Z /\ (g_left g <= Z.of_nat x <= g_right g)%Z.
(** Each element of the grid (told apart by its number) is exactly at the positions inside its
    extent. *)
Definition rectangular (m : list (list (nat * gcell))) : Prop :=
  forall r x i g, at_pos m r x = Some (i, g) ->
    forall r' x', inside r' x' g <-> at_pos m r' x' = Some (i, g).

(** The cells of a row with the columns they begin in, and those that do not continue one
    above. *)
Fixpoint placed (x : nat) (row : list wcell) : list (nat * wcell) :=
  match row with
  | [] => []
  | c :: r => (x, c) :: placed (x + wc_span c) r
  end.
Definition own_cells (row : list wcell) : list (nat * wcell) := filter (fun p => negb (wc_cont (snd p))) (placed 0 row).

(** In row [r] the cell beginning in column [x] continues the one above. *)
Definition continued (rows : list (list wcell)) (r x : nat) : Prop :=
  exists row c, nth_error rows r = Some row /\ begins row x c /\ wc_cont c = true.
(** The cell beginning in row [r], column [x] reaches over [n] rows. *)
Definition height (rows : list (list wcell)) (r x n : nat) : Prop :=
  (1 <= n)%nat /\ (forall k, (1 <= k < n)%nat -> continued rows (r + k) x) /\ ~ continued rows (r + n) x.

(** A span as an attribute: in decimal, left out if it is one. *)
Definition span_written (n : nat) : option str := if (1 <? n)%nat then Some (str_of_N (N.of_nat n)) else None.
