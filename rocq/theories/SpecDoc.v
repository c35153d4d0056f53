(** Independent vocabulary for the properties about whole documents: which tables of a
    document are processed as figures, and with which columns. *)
From Coq Require Import NArith ZArith List Bool String.
From Verif Require Import PyStr Xml Json Lint RowIter Helpers Extract Document
  SpecText SpecFields SpecHeader SpecRows SpecIter SpecTable.
Import ListNotations.
Local Open Scope list_scope.
Local Open Scope N_scope.

(** The column headers of a table: one for each cell of its first row. *)
Definition table_headers (tbl : elem) (hs : list str) : Prop :=
  match children t_tr tbl with
  | [] => hs = []
  | tr :: _ => Forall2 (fun k h => column_header (itertext (fst k)) h) (e_kids tr) hs
  end.

(** No extractor applies to these headers. *)
Definition unsupported (hs : list str) : Prop :=
  ~ applies_bytes hs /\ ~ applies_values hs /\ ~ applies_bits hs.

(** The extractor a figure is handled by: the document's own one for that figure, else the
    first of bytes, values, bits that applies. *)
Definition chosen (P : parser) (fig : str) (hs : list str) (c : ecls) : Prop :=
  match lookup_fig (p_fig_overrides P) fig with
  | Some c' => c = c'
  | None =>
      (c = BytesTableExtractor /\ applies_bytes hs)
      \/ (c = ValueTableExtractor /\ ~ applies_bytes hs /\ applies_values hs)
      \/ (c = BitsTableExtractor /\ ~ applies_bytes hs /\ ~ applies_values hs /\ applies_bits hs)
  end.

(** Its columns: the last ones with the chosen header texts. *)
Definition uses_columns (c : ecls) (hs : list str) (k l d : nat) : Prop :=
  exists hk hl hd,
    last_position hs hk k /\ last_position hs hl l /\ last_position hs hd d
    /\ first_of hs (ec_key_hdrs c) hk
    /\ ((first_of hs (ec_label_hdrs c) hl /\ first_of hs (ec_content_hdrs c) hd)
        \/ (ec_kind c = EKValues /\ List.length hs = 2%nat /\ hk = utf8 "value"
            /\ hl = hd /\ hl <> utf8 "value" /\ hl <> [] /\ In hl hs)).

(** [x]: how figure [m] with table [tbl] is read. *)
Definition handled (P : parser) (m : meta) (tbl : elem) (x : xctx) : Prop :=
  x_meta x = m
  /\ exists hs, table_headers tbl hs /\ chosen P (m_fig m) hs (x_cls x)
                /\ uses_columns (x_cls x) hs (x_key x) (x_label x) (x_content x).

(** The key of a data row: its lower offset (or range text), or its value. *)
Definition key_of_row (x : xctx) (row : elem) (content : elem) (key : str) : Prop :=
  match ec_kind (x_cls x) with
  | EKStruct _ => exists k l r, row_cells x row k content l
                    /\ (reads_numbers (to_text k) r \/ reads_formula (to_text k) r)
                    /\ key = key_of_range r
  | EKValues => exists k, value_cells x row k content /\ key = lower (to_text k)
  end.

(** ** Title rows *)

(** Titles a figure id can be read from: "Figure", white space, then the longest run of
    characters other than white space, ':' and '^'. *)
Definition id_char (c : N) : bool := negb (isspace c || (c =? 58) || (c =? 94)).
Definition title_id (t id : str) : Prop :=
  exists w rest, t = utf8 "Figure" ++ w ++ id ++ rest
    /\ w <> [] /\ blanks w /\ id <> [] /\ all id_char id /\ ~ begins id_char rest.

(** A table whose first cell starts with another table stands for that table. *)
Definition wraps (t u : elem) : Prop :=
  exists tr trs td tds tl ks, children t_tr t = tr :: trs /\ children t_td tr = td :: tds
    /\ e_kids td = (u, tl) :: ks /\ e_tag u = t_table.
Definition unwrapped (t u : elem) : Prop := wraps t u \/ (u = t /\ forall v, ~ wraps t v).

(** A table without rows; the text of the title row of a table. *)
Definition rowless (t : elem) : Prop := exists u, unwrapped t u /\ children t_tr u = [].
Definition title_text (t : elem) (s : str) : Prop :=
  exists u tr trs, unwrapped t u /\ children t_tr u = tr :: trs /\ s = to_text tr.
Definition mentions (s : str) : Prop := exists a b, s = a ++ utf8 "Figure" ++ b.

(** No figure; a figure without an id; a figure with an id, its table being what follows the
    title row. *)
Definition untitled (t : elem) : Prop := exists s, title_text t s /\ ~ mentions s.
Definition unidentified (t : elem) (title : str) : Prop :=
  title_text t title /\ mentions title /\ forall id, ~ title_id title id.
Definition identified (t : elem) (m : meta) (tbl : elem) : Prop :=
  exists u tr tl a b id, unwrapped t u
    /\ e_kids u = a ++ (tr, tl) :: b /\ e_tag tr = t_tr /\ Forall (fun k => e_tag (fst k) <> t_tr) a
    /\ title_id (to_text tr) id
    /\ m = mkMeta (Some (to_text tr)) id None
    /\ tbl = Elem (e_tag u) (e_attrs u) (e_text u) (a ++ b).

(** ** Figures *)

(** The name of the figure nested in the row [key] of figure [fig]. *)
Definition sub_meta (fig key : str) : meta := mkMeta None (fig ++ [95] ++ key) (Some fig).

(** The figures that are processed: top-level tables with a figure id, the tables in the
    content cells of processed figures, and figures split off by a document's own extractor. *)
Inductive processed (P : parser) (tbls : list elem) : meta -> elem -> Prop :=
| pr_top t m tbl :
    In t tbls -> identified t m tbl -> processed P tbls m tbl
| pr_nested m tbl x rows ok y content key sub :
    processed P tbls m tbl -> handled P m tbl x -> table_rows tbl rows ok ->
    In y rows -> key_of_row x (y_row y) content key ->
    In sub (children t_table content) ->
    processed P tbls (sub_meta (m_fig m) key) sub
| pr_split m tbl x rows ok y m' tbl' :
    processed P tbls m tbl -> handled P m tbl x -> table_rows tbl rows ok ->
    In y rows ->
    splits_off x y (m', tbl') ->
    processed P tbls m' tbl'.

(** Splitting extractors name the figure they split off (true of all that exist). *)
Definition sane (P : parser) : Prop :=
  forall fig c prefix fig', In (fig, c) (p_fig_overrides P) ->
    ec_handler c = HSplit prefix fig' -> fig' <> [].

(** The context of an entry, by its code. *)
Definition code_context (c : code) (ctx : list (str * json)) : Prop :=
  match c with
  | L1002 => exists s, ctx = [(utf8 "label", JStr s)]
  | L1004 => ctx = [] \/ exists s, ctx = [(utf8 "label", JStr s)]
  | T1000 => ctx = [] \/ exists s, ctx = [(utf8 "title", JStr s)]
  | T1006 => exists a b, ctx = [(utf8 "got", JStr a); (utf8 "expected", JStr b)]
  | T1007 => exists l, ctx = [(utf8 "columns", JList (map JStr l))]
  | T1008 => exists s, ctx = [(utf8 "title", JStr s)]
  | _ => ctx = []
  end.
(** The published rules for a lint entry. *)
Definition wellformed_lint (l : lint) : Prop :=
  l_fig l <> [] /\ l_msg l <> [] /\ l_msg l = code_msg (l_code l) /\ code_context (l_code l) (l_ctx l)
  /\ ((exists r, code_name (l_code l) = utf8 "R" ++ r \/ code_name (l_code l) = utf8 "L" ++ r
                 \/ code_name (l_code l) = utf8 "V" ++ r) -> l_row l <> None).

(** The fields in the order they are emitted. *)
Definition emitted_order (k : skind) (fs : list sfield) : list sfield :=
  match k with KBits => List.rev fs | KBytes => fs end.

(** What the checks on a finished entity report (C03, C06, C08, C09), as single entries. *)
Inductive struct_check (fig : str) (fs : list sfield) : lint -> Prop :=
| sc_order : out_of_order fs -> struct_check fig fs (mkLint T1004 fig (code_msg T1004) None [])
| sc_overlap a p q b :
    ~ out_of_order fs -> fs = a ++ p :: q :: b -> overlap p q ->
    struct_check fig fs (row_lint T1001 fig (field_key q) [])
| sc_gap a p q b :
    ~ out_of_order fs -> fs = a ++ p :: q :: b -> gap p q ->
    struct_check fig fs (row_lint T1002 fig (field_key q) [])
| sc_label a f b g :
    ~ out_of_order fs -> fs = a ++ f :: b -> plain (sf_label f) ->
    In g a -> sf_label g = sf_label f ->
    struct_check fig fs (row_lint L1002 fig (field_key f) [(utf8 "label", JStr (sf_label f))]).

Inductive value_check (fig : str) (fs : list vfield) : lint -> Prop :=
| vc_label a f b g :
    fs = a ++ f :: b -> plain (vf_label f) -> In g a -> plain (vf_label g) ->
    vf_label g = vf_label f ->
    value_check fig fs (row_lint L1002 fig (vf_val f) [(utf8 "label", JStr (vf_label f))])
| vc_value a f b g :
    fs = a ++ f :: b -> plain (vf_label f) -> In g a -> plain (vf_label g) ->
    vf_val g = vf_val f ->
    value_check fig fs (row_lint V1002 fig (vf_val f) []).

Definition entity_check (e : entity) (l : lint) : Prop :=
  match en_body e with
  | BStruct _ fs => struct_check (m_fig (en_meta e)) fs l
  | BValues fs => value_check (m_fig (en_meta e)) fs l
  end.

(** The codes used by these checks only. *)
Definition check_codes : list code := [T1001; T1002; T1004; L1002; V1002].

(** ** Nested figures in row order *)

(** The figures nested in a data row: the tables in its content cell, named after the row. *)
Definition nested_in (x : xctx) (key : str) (content : elem) : list (meta * elem) :=
  map (fun sub => (sub_meta (x_fig x) key, sub)) (children t_table content).

Definition row_figs (x : xctx) (dyn : bool) (y : yrow) (figs : list (meta * elem)) : Prop :=
  (exists k c l rg, row_cells x (y_row y) k c l
     /\ ~ special (to_text k) /\ ~ special (to_text l) /\ ~ special (to_text c)
     /\ (if dyn then reads_formula (to_text k) rg else reads_numbers (to_text k) rg)
     /\ figs = nested_in x (key_of_range rg) c)
  \/ ((forall k c l, row_cells x (y_row y) k c l ->
         special (to_text k) \/ special (to_text l) \/ special (to_text c)) /\ figs = []).

(** ... of all rows of a struct table up to the row that ends it ([dyn]: list mode). *)
Inductive rows_figs (x : xctx) : bool -> list yrow -> list (meta * elem) -> Prop :=
| rf_end dyn : rows_figs x dyn [] []
| rf_header dyn y rest figs :
    children t_th (y_row y) <> [] ->
    rows_figs x (dyn || announces_list (y_row y)) rest figs -> rows_figs x dyn (y :: rest) figs
| rf_row dyn y rest a b :
    children t_th (y_row y) = [] -> ~ row_ends x y -> row_figs x dyn y a ->
    rows_figs x dyn rest b -> rows_figs x dyn (y :: rest) (a ++ b)
| rf_stop dyn y rest :
    children t_th (y_row y) = [] -> row_ends x y -> rows_figs x dyn (y :: rest) [].

Definition vrow_figs (x : xctx) (y : yrow) (figs : list (meta * elem)) : Prop :=
  (exists k c, value_cells x (y_row y) k c /\ lower (to_text k) <> lbl_ellipsis
     /\ figs = nested_in x (lower (to_text k)) c)
  \/ ((forall k c, value_cells x (y_row y) k c -> lower (to_text k) = lbl_ellipsis) /\ figs = []).
Definition vrow_ends (x : xctx) (y : yrow) : Prop :=
  (forall k c, ~ value_cells x (y_row y) k c) /\ exists u, lower (to_text (y_row y)) = utf8 "notes:" ++ u.
Inductive vrows_figs (x : xctx) : list yrow -> list (meta * elem) -> Prop :=
| vf_end : vrows_figs x [] []
| vf_header y rest figs :
    children t_th (y_row y) <> [] -> vrows_figs x rest figs -> vrows_figs x (y :: rest) figs
| vf_row y rest a b :
    children t_th (y_row y) = [] -> ~ vrow_ends x y -> vrow_figs x y a ->
    vrows_figs x rest b -> vrows_figs x (y :: rest) (a ++ b)
| vf_stop y rest :
    children t_th (y_row y) = [] -> vrow_ends x y -> vrows_figs x (y :: rest) [].

(** The figures nested in a table read as [x], among the rows [rows]. *)
Definition table_figs (x : xctx) (rows : list yrow) (figs : list (meta * elem)) : Prop :=
  match ec_kind (x_cls x) with
  | EKStruct _ => rows_figs x false rows figs
  | EKValues => vrows_figs x rows figs
  end.

(** Splitting extractors are set up for top-level figures only, and do not chain (true of all
    that exist). *)
Definition tame (P : parser) : Prop :=
  forall fig c prefix fig', In (fig, c) (p_fig_overrides P) -> ec_handler c = HSplit prefix fig' ->
    fig' <> [] /\ ~ In 95 fig /\ lookup_fig (p_fig_overrides P) fig' = None.

(** The figure's own extractor may split off another figure. *)
Definition splits (P : parser) (fig : str) : Prop :=
  exists c prefix fig', lookup_fig (p_fig_overrides P) fig = Some c /\ ec_handler c = HSplit prefix fig'.

(** The same parser without --skip-figure-on-error. *)
Definition no_skip (P : parser) : parser := mkParser false (p_label_overrides P) (p_fig_overrides P).

(** The T1000 entries among events. *)
Definition errors (t : list event) : list lint := of_code T1000 (lints_of t).
