(** Independent vocabulary for C79: tables of a docx document whose cells hold several
    paragraphs, lists and further tables. *)
From Coq Require Import NArith ZArith List Bool String.
From Verif Require Import PyStr Xml Docx Lint RowIter Helpers Extract Document
  SpecText SpecFields SpecLabel SpecHeader SpecNames SpecTable SpecDoc SpecDocx SpecGrid SpecHtml SpecTables SpecReads SpecEnd.
Import ListNotations.
Local Open Scope list_scope.
Local Open Scope N_scope.

(** ** Cells *)

(** The first thing shown of the cell is a paragraph, not numbered, with the text [t] (without
    white space at the ends; if that is all, nothing else is shown of the cell). *)
Definition cell_opens (tc : welem) (t : str) : Prop :=
  exists a p b rs xs, w_kids tc = a ++ p :: b /\ w_tag p = utf8 "w:p" /\ unnumbered p /\ Forall silent a
    /\ runs (w_kids p) rs /\ run_texts rs xs /\ xs <> [] /\ trims_to (List.concat xs) t /\ (t = [] -> Forall silent b).
(** The text of these elements: the paragraphs, with numbering or without, each on lines of its
    own; where a table stands, any text on lines of its own. *)
Inductive texts_of : list welem -> str -> Prop :=
| te_end w : w = [] \/ breaks w -> texts_of [] w
| te_other k ks s : w_tag k <> utf8 "w:p" -> w_tag k <> utf8 "w:tbl" -> texts_of ks s -> texts_of (k :: ks) s
| te_empty p ks rs s : w_tag p = utf8 "w:p" -> runs (w_kids p) rs -> run_texts rs [] -> texts_of ks s -> texts_of (p :: ks) s
| te_par p ks rs xs w s : w_tag p = utf8 "w:p" -> runs (w_kids p) rs -> run_texts rs xs -> breaks w -> texts_of ks s ->
    texts_of (p :: ks) (w ++ List.concat xs ++ s)
| te_table t ks r s : w_tag t = utf8 "w:tbl" -> r = [] \/ (exists w u, r = w ++ u /\ breaks w) -> texts_of ks s ->
    texts_of (t :: ks) (r ++ s).
(** ... without white space at the ends. *)
Definition cell_tells (tc : welem) (c : str) : Prop := exists s, texts_of (w_kids tc) s /\ trims_to s c.

(** Cell number [j] of row [r] shows the contents of [tc]: its own, or those of the cell above
    that it continues. *)
Definition cell_at (rows : list (list wcell)) (r j : nat) (tc : welem) : Prop :=
  exists row y c, nth_error rows r = Some row /\ nth_error (placed 0 row) j = Some (y, c) /\ shown_at rows r y tc.
(** The row has one cell, which begins with the paragraph [t]. *)
Definition lone_opens (rows : list (list wcell)) (r : nat) (t : str) : Prop :=
  (exists c, nth_error rows r = Some [c]) /\ exists tc, cell_at rows r 0 tc /\ cell_opens tc t.

(** ** Fields *)

(** A field, with the cell its brief is taken from. *)
Record sform := mkSForm { fo_label : str; fo_range : range; fo_cell : option welem }.
Record vform := mkVForm { vo_val : str; vo_label : str; vo_cell : option welem }.
Definition fits (g : sform) (f : sfield) : Prop :=
  sf_label f = fo_label g /\ sf_range f = fo_range g
  /\ match fo_cell g with None => sf_brief f = None | Some tc => exists c, cell_tells tc c /\ kept_brief c (sf_brief f) end.
Definition vfits (g : vform) (f : vfield) : Prop :=
  vf_val f = vo_val g /\ vf_label f = vo_label g
  /\ match vo_cell g with None => vf_brief f = None | Some tc => exists c, cell_tells tc c /\ brief_told c (vf_brief f) end.

(** The tables in a content cell, as figures named after the row. *)
Definition tables_in (x : xctx) (key : str) (cc : welem) : list (meta * welem) :=
  map (fun t => (sub_meta (x_fig x) key, t)) (w_children "w:tbl" cc).

(** ** Struct tables *)

(** What a row gives, with the text [k] for the range, the first paragraph [l] of the label cell
    and the content cell [cc]: a field or nothing, and the figures nested in it. *)
Inductive row_form (x : xctx) (dyn : bool) (k l : str) (cc : welem) : option sform -> list (meta * welem) -> Prop :=
| wf_regular c r raw lbl :
    cell_opens cc c -> ~ special k -> ~ special l -> ~ special c ->
    (if dyn then reads_formula k r else reads_numbers k r) ->
    label_source (x_content x =? x_label x)%nat l raw -> normal raw lbl ->
    row_form x dyn k l cc (Some (mkSForm (lower lbl) r (Some cc))) (tables_in x (key_of_range r) cc)
| wf_special_range : special k -> row_form x dyn k l cc None []
| wf_special_content c r lbl :
    cell_says cc c -> ~ special k -> reads_numbers k r -> In lbl [lbl_reserved; lbl_obsolete; lbl_ellipsis] -> upper c = lbl ->
    row_form x dyn k l cc (Some (mkSForm lbl r None)) []
| wf_special_other c r :
    cell_says cc c -> ~ special k -> reads_numbers k r -> special l \/ special c ->
    ~ In (upper c) [lbl_reserved; lbl_obsolete; lbl_ellipsis] -> row_form x dyn k l cc None [].

(** The fields given by the rows from number [r] on ([dyn]: list mode), and the figures nested in
    them. *)
Inductive docx_forms (x : xctx) (rows : list (list wcell)) : nat -> bool -> list sform -> list (meta * welem) -> Prop :=
| df_end r dyn : nth_error rows r = None -> docx_forms x rows r dyn [] []
| df_header r dyn row ts gs ns :
    nth_error rows r = Some row -> header_row row -> wide_texts row ts -> ~ names_list ts ->
    docx_forms x rows (S r) dyn gs ns -> docx_forms x rows r dyn gs ns
| df_list r dyn row ts gs ns :
    nth_error rows r = Some row -> header_row row -> wide_texts row ts -> names_list ts ->
    docx_forms x rows (S r) true gs ns -> docx_forms x rows r dyn gs ns
| df_row r dyn row k lc l cc g ms gs ns :
    nth_error rows r = Some row -> ~ header_row row ->
    says rows r (x_key x) k -> cell_at rows r (x_label x) lc -> cell_opens lc l -> cell_at rows r (x_content x) cc ->
    row_form x dyn k l cc g ms -> docx_forms x rows (S r) dyn gs ns ->
    docx_forms x rows r dyn (match g with Some g => g :: gs | None => gs end) (ms ++ ns)
| df_ellipsis r dyn row t u gs ns :
    nth_error rows r = Some row -> ~ header_row row -> wide x -> lone_opens rows r t -> lower t = lbl_ellipsis ++ u ->
    docx_forms x rows (S r) dyn gs ns -> docx_forms x rows r dyn (mkSForm lbl_ellipsis (RInt (-1) (-1)) None :: gs) ns
| df_lone r dyn row t gs ns :
    nth_error rows r = Some row -> ~ header_row row -> wide x -> lone_opens rows r t ->
    (forall u, lower t <> lbl_ellipsis ++ u) -> (forall u, lower t <> utf8 "note" ++ u) ->
    ec_handler (x_cls x) = HDefault ->
    docx_forms x rows (S r) dyn gs ns -> docx_forms x rows r dyn gs ns
| df_note r dyn row t u :
    nth_error rows r = Some row -> ~ header_row row -> wide x -> lone_opens rows r t -> lower t = utf8 "note" ++ u ->
    docx_forms x rows r dyn [] [].

(** ** Value tables *)
Inductive vrow_form (ov : overrides) (x : xctx) (rows : list (list wcell)) (r : nat) (k : str) (cc : welem) : vform -> list (meta * welem) -> Prop :=
| wv_ellipsis : lower k = lbl_ellipsis -> vrow_form ov x rows r k cc (mkVForm lbl_ellipsis lbl_ellipsis None) []
| wv_override lbl : lower k <> lbl_ellipsis -> overridden ov (x_fig x) (lower k) lbl ->
    vrow_form ov x rows r k cc (mkVForm (lower k) lbl (Some cc)) (tables_in x (lower k) cc)
| wv_label lc l c lbl : lower k <> lbl_ellipsis -> not_overridden ov (x_fig x) (lower k) ->
    cell_at rows r (x_label x) lc -> cell_opens lc l -> cell_opens cc c -> value_label (x_content x =? x_label x)%nat l lbl ->
    vrow_form ov x rows r k cc (mkVForm (lower k) lbl (Some cc)) (tables_in x (lower k) cc).
Inductive docx_vforms (ov : overrides) (x : xctx) (rows : list (list wcell)) : nat -> list vform -> list (meta * welem) -> Prop :=
| dw_end r : nth_error rows r = None -> docx_vforms ov x rows r [] []
| dw_header r row gs ns :
    nth_error rows r = Some row -> header_row row -> docx_vforms ov x rows (S r) gs ns -> docx_vforms ov x rows r gs ns
| dw_row r row k cc g ms gs ns :
    nth_error rows r = Some row -> ~ header_row row ->
    says rows r (x_key x) k -> cell_at rows r (x_content x) cc -> vrow_form ov x rows r k cc g ms ->
    docx_vforms ov x rows (S r) gs ns -> docx_vforms ov x rows r (g :: gs) (ms ++ ns)
| dw_ellipsis r row t u gs ns :
    nth_error rows r = Some row -> ~ header_row row -> (1 <= x_key x \/ 1 <= x_content x)%nat -> lone_opens rows r t -> lower t = lbl_ellipsis ++ u ->
    docx_vforms ov x rows (S r) gs ns -> docx_vforms ov x rows r (mkVForm lbl_ellipsis lbl_ellipsis None :: gs) ns
| dw_lone r row t gs ns :
    nth_error rows r = Some row -> ~ header_row row -> (1 <= x_key x \/ 1 <= x_content x)%nat -> lone_opens rows r t ->
    (forall u, lower t <> lbl_ellipsis ++ u) -> (forall u, lower t <> utf8 "notes:" ++ u) ->
    docx_vforms ov x rows (S r) gs ns -> docx_vforms ov x rows r gs ns
| dw_notes r row t u :
    nth_error rows r = Some row -> ~ header_row row -> (1 <= x_key x \/ 1 <= x_content x)%nat -> lone_opens rows r t -> lower t = utf8 "notes:" ++ u ->
    docx_vforms ov x rows r [] [].

(** ** Figures *)
Inductive forms := FStruct (k : skind) (gs : list sform) | FValues (gs : list vform).
Definition forms_fit (g : forms) (b : body) : Prop :=
  match g, b with
  | FStruct k gs, BStruct k' fs => k = k' /\ Forall2 fits gs fs
  | FValues gs, BValues fs => Forall2 vfits gs fs
  | _, _ => False
  end.
(** The figure [m] as the rows of a table from its header row on, which has the number [h]: they
    give the fields [g], and the figures [ns] are nested in them. *)
Definition table_forms (P : parser) (m : meta) (rows : list (list wcell)) (h : nat) (x : xctx) (g : forms) (ns : list (meta * welem)) : Prop :=
  x_meta x = m
  /\ (exists hrow hs, nth_error rows h = Some hrow /\ header_row hrow /\ row_headers hrow hs
        /\ chosen P (m_fig m) hs (x_cls x) /\ uses_columns (x_cls x) hs (x_key x) (x_label x) (x_content x))
  /\ match g with
     | FStruct k gs => ec_kind (x_cls x) = EKStruct k
         /\ exists gs', docx_forms x rows h false gs' ns /\ gs = match k with KBits => rev gs' | KBytes => gs' end
     | FValues gs => ec_kind (x_cls x) = EKValues /\ docx_vforms (p_label_overrides P) x rows h gs ns
     end.
(** A nested table that can be read: no extractor applies to its columns, or it gives fields and
    so do the tables nested in it. *)
Inductive table_ok (P : parser) : meta -> welem -> Prop :=
| tk_columns m tbl rows hrow hs :
    regular tbl rows -> lookup_fig (p_fig_overrides P) (m_fig m) = None -> nth_error rows 0 = Some hrow -> row_headers hrow hs -> unsupported hs ->
    table_ok P m tbl
| tk_table m tbl rows x g ns :
    regular tbl rows -> table_forms P m rows 0 x g ns -> (forall n, In n ns -> table_ok P (fst n) (snd n)) -> table_ok P m tbl.
(** The figures in a nested table: itself, and those in the tables nested in it. *)
Inductive table_part (P : parser) : meta -> welem -> meta -> forms -> Prop :=
| tp_here m tbl rows x g ns : regular tbl rows -> table_forms P m rows 0 x g ns -> table_part P m tbl m g
| tp_in m tbl rows x g ns n m' g' :
    regular tbl rows -> table_forms P m rows 0 x g ns -> In n ns -> table_part P (fst n) (snd n) m' g' -> table_part P m tbl m' g'.
(** The first row is the title of the figure [m]. *)
Definition titled (rows : list (list wcell)) (m : meta) : Prop :=
  exists title id, lone rows 0 title /\ title_id title id /\ m = mkMeta (Some title) id None.
