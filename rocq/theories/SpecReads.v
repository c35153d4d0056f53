(** Independent vocabulary for C77: which tables are read to their end, and what keeps a table
    from being read. *)
From Coq Require Import NArith ZArith List Bool String.
From Verif Require Import PyStr Xml Lint RowIter Helpers Extract Document
  SpecText SpecFields SpecHeader SpecRows SpecIter SpecTable SpecDoc.
Import ListNotations.
Local Open Scope list_scope.
Local Open Scope N_scope.

(** A row without header cells. *)
Definition data_row (y : yrow) : Prop := children t_th (y_row y) = [].
(** A row that ends the table. *)
Definition last_row (x : xctx) (y : yrow) : Prop :=
  match ec_kind (x_cls x) with EKStruct _ => row_ends x y | EKValues => vrow_ends x y end.
(** The rows are read to their end, or to a row that ends the table. *)
Definition comes_to_end (x : xctx) (tbl : elem) : Prop :=
  exists rows ok, table_rows tbl rows ok /\ (ok = true \/ exists y, In y rows /\ data_row y /\ last_row x y).

(** What the rows of a table give: the fields, in the order they are emitted in. *)
Definition table_gives (P : parser) (x : xctx) (tbl : elem) (b : body) : Prop :=
  exists rows ok, table_rows tbl rows ok /\
  match b with
  | BStruct k fields => ec_kind (x_cls x) = EKStruct k
      /\ exists fs, rows_give x false rows fs /\ fields = match k with KBits => rev fs | KBytes => fs end
  | BValues fields => ec_kind (x_cls x) = EKValues /\ vrows_give (p_label_overrides P) x rows fields
  end.

(** The documents' own extractors are for struct tables (true of all that exist). *)
Definition struct_overrides (P : parser) : Prop :=
  forall fig c, In (fig, c) (p_fig_overrides P) -> ec_kind c <> EKValues.

(** ** Obstacles *)

(** A number with more than 4300 digits. *)
Definition too_long (t : str) : Prop :=
  (exists hi lo, two_numbers t hi lo /\ ~ (convertible hi /\ convertible lo))
  \/ (exists n, one_number t n /\ ~ convertible n).

(** Rows of a struct table that cannot be read ([dyn]: list mode). *)
Inductive row_fails (x : xctx) (dyn : bool) (y : yrow) : Prop :=
| rx_number k c l :
    row_cells x (y_row y) k c l -> ~ special (to_text k) ->
    dyn = false \/ special (to_text l) \/ special (to_text c) ->
    too_long (to_text k) -> row_fails x dyn y
| rx_short :
    (forall k c l, ~ row_cells x (y_row y) k c l) ->
    (forall u, lower (to_text (y_row y)) <> lbl_ellipsis ++ u) ->
    (forall u, lower (to_text (y_row y)) <> utf8 "note" ++ u) ->
    ~ tolerated x y -> (forall n, ~ splits_off x y n) -> row_fails x dyn y.

(** Rows of a value table that cannot be read: the cell with the label has no paragraph. *)
Inductive vrow_fails (ov : overrides) (x : xctx) (y : yrow) : Prop :=
| vx_label k c :
    value_cells x (y_row y) k c -> lower (to_text k) <> lbl_ellipsis ->
    not_overridden ov (x_fig x) (lower (to_text k)) ->
    (forall td, nth_error (children t_td (y_row y)) (x_label x) = Some td -> children t_p td = []) ->
    vrow_fails ov x y.

(** List mode: a header row for a list stands above. *)
Definition lists_above (above : list yrow) : bool :=
  existsb (fun z => contains_th (y_row z) && announces_list (y_row z)) above.

(** What keeps a table from being read: one of its rows, or its row or column spans. *)
Inductive obstacle (P : parser) (x : xctx) (tbl : elem) : Prop :=
| ob_row a y b ok :
    table_rows tbl (a ++ y :: b) ok -> (forall z, In z a -> data_row z -> ~ last_row x z) -> data_row y ->
    match ec_kind (x_cls x) with
    | EKStruct _ => row_fails x (lists_above a) y
    | EKValues => vrow_fails (p_label_overrides P) x y
    end -> obstacle P x tbl
| ob_spans rows :
    table_rows tbl rows false -> (forall z, In z rows -> data_row z -> ~ last_row x z) ->
    obstacle P x tbl.

(** A figure nested in a row that was reached. *)
Definition nested_figure (x : xctx) (tbl : elem) (n : meta * elem) : Prop :=
  exists a b ok figs, table_rows tbl (a ++ b) ok /\ table_figs x a figs /\ In n figs.

(** A figure that can be read with all figures nested in it: no extractor applies to its
    columns, or its rows give fields, it comes to its end and so do the figures nested in it. *)
Inductive readable (P : parser) : meta * elem -> Prop :=
| rd_columns m tbl hs :
    lookup_fig (p_fig_overrides P) (m_fig m) = None -> table_headers tbl hs -> unsupported hs ->
    readable P (m, tbl)
| rd_table m tbl x b :
    handled P m tbl x -> table_gives P x tbl b -> comes_to_end x tbl ->
    (forall n, nested_figure x tbl n -> readable P n) -> readable P (m, tbl).
