(** Independent vocabulary for what reading a docx document gives: the paragraphs, lists and
    tables of its tables. *)
From Coq Require Import NArith ZArith List Bool String.
From Verif Require Import PyStr RowIter Docx SpecFmt SpecQuery SpecRuns SpecGrid SpecList.
Import ListNotations.
Local Open Scope string_scope.
Local Open Scope list_scope.

(** The colour of a cell: six characters other than those for white. *)
Definition white (f : str) : Prop := lower f = utf8 "ffffff".
Definition coloured (tc : welem) (f : str) : Prop :=
  first_value ["w:tcPr"; "w:shd"] "w:fill" tc f /\ List.length f = 6%nat /\ ~ white f.
Definition colour_of (tc : welem) (o : option str) : Prop :=
  match o with Some f => coloured tc f | None => forall f, ~ coloured tc f end.
(** A cell is a header if its colour is a grey: one pair of characters, three times. *)
Definition grey (f : str) : Prop := exists a b, f = [a; b; a; b; a; b].
Definition cell_kind (o : option str) (tag : str) : Prop :=
  (tag = utf8 "th" /\ exists f, o = Some f /\ grey f)
  \/ (tag = utf8 "td" /\ forall f, o = Some f -> ~ grey f).

(** The cell shown at row [r], column [x] is [c], and it begins at row [r0], column [x0]. *)
Inductive from_cell (rows : list (list wcell)) : nat -> nat -> nat -> nat -> wcell -> Prop :=
| fc_own r row x y c : nth_error rows r = Some row -> begins row y c -> (y <= x < y + wc_span c)%nat ->
    wc_cont c = false -> from_cell rows r x r y c
| fc_above r row x y c r0 x0 c0 : nth_error rows (S r) = Some row -> begins row y c -> (y <= x < y + wc_span c)%nat ->
    wc_cont c = true -> from_cell rows r x r0 x0 c0 -> from_cell rows (S r) x r0 x0 c0.
(** The number of columns of a row. *)
Definition columns (row : list wcell) : nat := list_sum (map wc_span row).

(** The number of a table: its first cell is not a header and begins with a paragraph that
    begins with [Figure], the number and a colon. *)
Definition has_number (cells : list (list tcell)) (n : str) : Prop :=
  exists t more others sps more_es rest, cells = (t :: more) :: others
    /\ tc_tag t = utf8 "td" /\ tc_elems t = HPar sps :: more_es
    /\ n <> [] /\ Forall (fun c => isdigit c = true) n
    /\ List.concat (map sp_text sps) = utf8 "Figure " ++ n ++ utf8 ":" ++ rest.
Definition table_number (cells : list (list tcell)) (o : option str) : Prop :=
  match o with Some n => has_number cells n | None => forall n, ~ has_number cells n end.

Section Doc.
Variable d : docx.

(** The items of the list [a] on level [i] that the elements [st] begin with, and the elements
    left.  A paragraph on the level is an item, and those on deeper levels are a list within. *)
Inductive list_items (a : Z) : Z -> list welem -> list litem -> list welem -> Prop :=
| li_end i st : ends_list d a i st -> list_items a i st [] st
| li_item i p st sps its st' : list_par d p a i -> par_spans d p sps -> list_items a i st its st' ->
    list_items a i (p :: st) (LItem sps :: its) st'
| li_sub i j p st l sub st1 its st2 : list_par d p a j -> (i < j)%Z -> level_props d p l ->
    list_items a j (p :: st) sub st1 -> list_items a i st1 its st2 ->
    list_items a i (p :: st) (LSub l sub :: its) st2.

(** What elements mean, one after the other.  The first set of tables are those that were met
    before, and the second those met then: a table that was met before is left out. *)
Inductive contents_mean : list welem -> list N -> list hunit -> list N -> Prop :=
| cm_nil s : contents_mean [] s [] s
| cm_other e st s us s' : w_tag e <> utf8 "w:tbl" -> w_tag e <> utf8 "w:p" -> contents_mean st s us s' ->
    contents_mean (e :: st) s us s'
| cm_again t st s us s' : w_tag t = utf8 "w:tbl" -> In (w_id t) s -> contents_mean st s us s' ->
    contents_mean (t :: st) s us s'
| cm_table t st s u s1 us s2 : w_tag t = utf8 "w:tbl" -> table_means t s u s1 -> contents_mean st s1 us s2 ->
    contents_mean (t :: st) s (u :: us) s2
| cm_list p st a i l its st' s us s' : list_par d p a i -> level_props d p l -> list_items a i (p :: st) its st' ->
    contents_mean st' s us s' -> contents_mean (p :: st) s (HList l its :: us) s'
| cm_par p st sps s us s' : w_tag p = utf8 "w:p" -> not_listed d p -> par_spans d p sps -> sps <> [] ->
    contents_mean st s us s' -> contents_mean (p :: st) s (HPar sps :: us) s'
| cm_empty p st s us s' : w_tag p = utf8 "w:p" -> not_listed d p -> par_spans d p [] ->
    contents_mean st s us s' -> contents_mean (p :: st) s us s'
(** A table that was not met before: at every position of its layout the cell shown there, with
    its contents, size, place of beginning and colour. *)
with table_means : welem -> list N -> hunit -> list N -> Prop :=
| tm_table t s rows cells id s' : ~ In (w_id t) s -> layout t rows -> aligned rows ->
    rows_mean rows 0 (w_id t :: s) cells s' -> table_number cells id ->
    table_means t s (HTable (w_id t) id cells) s'
with rows_mean : list (list wcell) -> nat -> list N -> list (list tcell) -> list N -> Prop :=
| rm_end rows r s : nth_error rows r = None -> rows_mean rows r s [] s
| rm_row rows r row s ts s1 tss s2 : nth_error rows r = Some row -> cells_mean rows r (columns row) 0 s ts s1 ->
    rows_mean rows (S r) s1 tss s2 -> rows_mean rows r s (ts :: tss) s2
with cells_mean : list (list wcell) -> nat -> nat -> nat -> list N -> list tcell -> list N -> Prop :=
| cs_end rows r x s : cells_mean rows r x x s [] s
| cs_cell rows r w x r0 x0 c n tag fill us s s1 ts s2 : (x < w)%nat -> from_cell rows r x r0 x0 c -> height rows r0 x0 n ->
    colour_of (wc_tc c) fill -> cell_kind fill tag ->
    contents_mean (w_kids (wc_tc c)) s us s1 -> cells_mean rows r w (S x) s1 ts s2 ->
    cells_mean rows r w x s
      (TC tag us (Z.of_nat (wc_span c), Z.of_nat n) (Z.of_nat x0, Z.of_nat r0) fill :: ts) s2.

(** The tables one after the other, without those met before. *)
Inductive tables_mean : list welem -> list N -> list hunit -> list N -> Prop :=
| tsm_nil s : tables_mean [] s [] s
| tsm_again t ts s us s' : In (w_id t) s -> tables_mean ts s us s' -> tables_mean (t :: ts) s us s'
| tsm_table t ts s u s1 us s2 : table_means t s u s1 -> tables_mean ts s1 us s2 -> tables_mean (t :: ts) s (u :: us) s2.
(** What the document means: what its tables mean, at any depth, in document order. *)
Definition document_means (us : list hunit) : Prop :=
  exists s, tables_mean (filter (is_tag "w:tbl") (below (dx_body d))) [] us s.
(** All its tables consist of rectangles. *)
Definition regular_tables : Prop :=
  forall t, In t (below (dx_body d)) -> w_tag t = utf8 "w:tbl" -> exists rows, layout t rows /\ aligned rows.
End Doc.
