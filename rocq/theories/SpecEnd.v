(** Independent vocabulary for C78: what a table of a docx document says, as the texts of its
    cells, and what is extracted from it. *)
From Coq Require Import NArith ZArith List Bool String.
From Verif Require Import PyStr Xml Docx Lint RowIter Helpers Extract Document
  SpecText SpecFields SpecLabel SpecHeader SpecNames SpecTable SpecDoc SpecDocx SpecGrid SpecHtml.
Import ListNotations.
Local Open Scope list_scope.
Local Open Scope N_scope.

(** ** Cells *)

(** A paragraph without numbering. *)
Definition unnumbered (p : welem) : Prop := forall pr np, child "w:pPr" p pr -> ~ child "w:numPr" pr np.
(** Nothing is shown of the element: it is no paragraph or table, or a paragraph without text. *)
Definition silent (k : welem) : Prop :=
  (w_tag k <> utf8 "w:p" /\ w_tag k <> utf8 "w:tbl")
  \/ (w_tag k = utf8 "w:p" /\ unnumbered k /\ exists rs, runs (w_kids k) rs /\ run_texts rs []).
(** The cell holds a paragraph, not numbered, and nothing else that is shown; [t] are the texts of
    the paragraph's runs without white space at the ends. *)
Definition cell_says (tc : welem) (t : str) : Prop :=
  exists a p b rs xs, w_kids tc = a ++ p :: b /\ w_tag p = utf8 "w:p" /\ unnumbered p
    /\ Forall silent (a ++ b)
    /\ runs (w_kids p) rs /\ run_texts rs xs /\ xs <> [] /\ trims_to (List.concat xs) t.
(** What is said by cell number [j] of row [r]; a cell that continues the one above says what
    that one says. *)
Definition says (rows : list (list wcell)) (r j : nat) (t : str) : Prop :=
  exists row y c tc, nth_error rows r = Some row /\ nth_error (placed 0 row) j = Some (y, c)
    /\ shown_at rows r y tc /\ cell_says tc t.
(** The row has one cell, which says [t]. *)
Definition lone (rows : list (list wcell)) (r : nat) (t : str) : Prop :=
  (exists c, nth_error rows r = Some [c]) /\ says rows r 0 t.

(** ** Header rows *)

(** The column headers of a header row. *)
Definition row_headers (row : list wcell) (hs : list str) : Prop :=
  Forall2 (fun p h => exists t, cell_says (wc_tc (snd p)) t /\ column_header t h) (own_cells row) hs.
(** The texts of its cells that span several columns. *)
Definition wide_texts (row : list wcell) (ts : list str) : Prop :=
  Forall2 (fun p t => cell_says (wc_tc (snd p)) t) (filter (fun p => (1 <? wc_span (snd p))%nat) (own_cells row)) ts.
Definition names_list (ts : list str) : Prop := exists a b, List.concat ts = a ++ utf8 "List" ++ b.

(** ** Struct tables *)

(** What a row with these texts for range, label and content gives: a field, or nothing. *)
Inductive texts_give (x : xctx) (dyn : bool) (k l c : str) : option sfield -> Prop :=
| xg_regular r raw lbl b :
    ~ special k -> ~ special l -> ~ special c ->
    (if dyn then reads_formula k r else reads_numbers k r) ->
    label_source (x_content x =? x_label x)%nat l raw -> normal raw lbl -> kept_brief c b ->
    texts_give x dyn k l c (Some (mkSField (lower lbl) r b))
| xg_special_range : special k -> texts_give x dyn k l c None
| xg_special_content r lbl :
    ~ special k -> reads_numbers k r -> In lbl [lbl_reserved; lbl_obsolete; lbl_ellipsis] -> upper c = lbl ->
    texts_give x dyn k l c (Some (mkSField lbl r None))
| xg_special_other r :
    ~ special k -> reads_numbers k r -> special l \/ special c ->
    ~ In (upper c) [lbl_reserved; lbl_obsolete; lbl_ellipsis] -> texts_give x dyn k l c None.

(** More than one column is needed. *)
Definition wide (x : xctx) : Prop := (1 <= x_key x \/ 1 <= x_label x \/ 1 <= x_content x)%nat.

(** The fields given by the rows from number [r] on ([dyn]: list mode). *)
Inductive docx_gives (x : xctx) (rows : list (list wcell)) : nat -> bool -> list sfield -> Prop :=
| dg_end r dyn : nth_error rows r = None -> docx_gives x rows r dyn []
| dg_header r dyn row ts fs :
    nth_error rows r = Some row -> header_row row -> wide_texts row ts -> ~ names_list ts ->
    docx_gives x rows (S r) dyn fs -> docx_gives x rows r dyn fs
| dg_list r dyn row ts fs :
    nth_error rows r = Some row -> header_row row -> wide_texts row ts -> names_list ts ->
    docx_gives x rows (S r) true fs -> docx_gives x rows r dyn fs
| dg_row r dyn row k l c f fs :
    nth_error rows r = Some row -> ~ header_row row ->
    says rows r (x_key x) k -> says rows r (x_label x) l -> says rows r (x_content x) c ->
    texts_give x dyn k l c f -> docx_gives x rows (S r) dyn fs ->
    docx_gives x rows r dyn (match f with Some f => f :: fs | None => fs end)
| dg_ellipsis r dyn row t u fs :
    nth_error rows r = Some row -> ~ header_row row -> wide x -> lone rows r t -> lower t = lbl_ellipsis ++ u ->
    docx_gives x rows (S r) dyn fs -> docx_gives x rows r dyn (ellipsis_field :: fs)
| dg_lone r dyn row t fs :
    nth_error rows r = Some row -> ~ header_row row -> wide x -> lone rows r t ->
    (forall u, lower t <> lbl_ellipsis ++ u) -> (forall u, lower t <> utf8 "note" ++ u) ->
    ec_handler (x_cls x) = HDefault ->
    docx_gives x rows (S r) dyn fs -> docx_gives x rows r dyn fs
| dg_note r dyn row t u :
    nth_error rows r = Some row -> ~ header_row row -> wide x -> lone rows r t -> lower t = utf8 "note" ++ u ->
    docx_gives x rows r dyn [].

(** ** Value tables *)

Inductive texts_value (ov : overrides) (x : xctx) (k l c : str) : vfield -> Prop :=
| tv_ellipsis : lower k = lbl_ellipsis -> texts_value ov x k l c ellipsis_value
| tv_override lbl b : lower k <> lbl_ellipsis -> overridden ov (x_fig x) (lower k) lbl -> brief_told c b ->
    texts_value ov x k l c (mkVField (lower k) lbl b)
| tv_label lbl b : lower k <> lbl_ellipsis -> not_overridden ov (x_fig x) (lower k) ->
    value_label (x_content x =? x_label x)%nat l lbl -> brief_told c b ->
    texts_value ov x k l c (mkVField (lower k) lbl b).

Inductive docx_values (ov : overrides) (x : xctx) (rows : list (list wcell)) : nat -> list vfield -> Prop :=
| dv_end r : nth_error rows r = None -> docx_values ov x rows r []
| dv_header r row fs :
    nth_error rows r = Some row -> header_row row -> docx_values ov x rows (S r) fs -> docx_values ov x rows r fs
| dv_row r row k l c f fs :
    nth_error rows r = Some row -> ~ header_row row ->
    says rows r (x_key x) k -> says rows r (x_label x) l -> says rows r (x_content x) c ->
    texts_value ov x k l c f -> docx_values ov x rows (S r) fs -> docx_values ov x rows r (f :: fs)
| dv_ellipsis r row t u fs :
    nth_error rows r = Some row -> ~ header_row row -> (1 <= x_key x \/ 1 <= x_content x)%nat -> lone rows r t -> lower t = lbl_ellipsis ++ u ->
    docx_values ov x rows (S r) fs -> docx_values ov x rows r (ellipsis_value :: fs)
| dv_lone r row t fs :
    nth_error rows r = Some row -> ~ header_row row -> (1 <= x_key x \/ 1 <= x_content x)%nat -> lone rows r t ->
    (forall u, lower t <> lbl_ellipsis ++ u) -> (forall u, lower t <> utf8 "notes:" ++ u) ->
    docx_values ov x rows (S r) fs -> docx_values ov x rows r fs
| dv_notes r row t u :
    nth_error rows r = Some row -> ~ header_row row -> (1 <= x_key x \/ 1 <= x_content x)%nat -> lone rows r t -> lower t = utf8 "notes:" ++ u ->
    docx_values ov x rows r [].

(** ** Figures *)

(** The rows of a table whose merged cells line up, with as many columns in every row that is
    not a header row, and no cell merged with one of a header row (as C43 needs it). *)
Definition regular (tbl : welem) (rows : list (list wcell)) : Prop :=
  layout tbl rows /\ aligned rows /\ separate rows
  /\ (forall row, In row rows -> own_cells row <> [])
  /\ exists W, (forall row, In row rows -> ~ header_row row -> list_sum (map wc_span row) = W)
       /\ N.of_nat (List.length rows) < 10 ^ 4300 /\ N.of_nat W < 10 ^ 4300.

(** The figure [title] as a table: a row with the title, a header row, and rows giving [b]; [x]
    are its id, extractor and columns. *)
Definition figure_table (P : parser) (rows : list (list wcell)) (title : str) (x : xctx) (b : body) : Prop :=
  lone rows 0 title
  /\ (exists id hrow hs, title_id title id /\ nth_error rows 1 = Some hrow /\ header_row hrow /\ row_headers hrow hs
        /\ x_meta x = mkMeta (Some title) id None /\ chosen P id hs (x_cls x)
        /\ uses_columns (x_cls x) hs (x_key x) (x_label x) (x_content x))
  /\ match b with
     | BStruct k fields => ec_kind (x_cls x) = EKStruct k
         /\ exists fs, docx_gives x rows 1 false fs /\ fields = match k with KBits => rev fs | KBytes => fs end
     | BValues fields => ec_kind (x_cls x) = EKValues /\ docx_values (p_label_overrides P) x rows 1 fields
     end.
