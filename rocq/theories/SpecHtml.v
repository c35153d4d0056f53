(** Independent vocabulary for the properties about the HTML document: reading it as XML, and
    what it means for an element to show a part of the docx document. *)
From Coq Require Import NArith ZArith List Bool String.
From Verif Require Import PyStr Xml Docx Render SpecFmt SpecGrid.
Import ListNotations.
Local Open Scope string_scope.
Local Open Scope list_scope.
Local Open Scope N_scope.

Definition blank (s : str) : Prop := Forall (fun c => isspace c = true) s.
(** White space that begins with a line break. *)
Definition breaks (s : str) : Prop := exists w, s = 10 :: w /\ blank w.

(** ** Reading XML *)

(** Attributes as written and as read: values between double quotes, every name once. *)
Definition attrs_read (w a : list (str * str)) : Prop :=
  Forall2 (fun p q => fst p = fst q /\ reads (snd p) (snd q) /\ Forall (fun c => c <> 34 /\ c <> 9 /\ c <> 10 /\ c <> 13) (snd p)) w a
  /\ NoDup (map fst w).
(** The pieces written between two tags, and what an XML reader makes of them: the text before
    the first element, and the elements, each with the text following it.  Every opening tag
    has to have its closing tag. *)
Inductive content : list tok -> str -> list kid -> Prop :=
| ct_nil : content [] [] []
| ct_text s t ts x ks : reads s t -> content ts x ks -> content (TText s :: ts) (t ++ x) ks
| ct_nl ts x ks : content ts x ks -> content (TNl :: ts) (10 :: x) ks
| ct_void tag w a rest x ks : attrs_read w a -> content rest x ks ->
    content (TVoid tag w :: rest) [] ((Elem tag a [] [], x) :: ks)
| ct_elem tag w a body bx bks rest x ks : attrs_read w a -> content body bx bks -> content rest x ks ->
    content (TOpen tag w :: body ++ TClose tag :: rest) [] ((Elem tag a bx bks, x) :: ks).

(** ** Showing the parts of a document *)

Section Shows.
(** The CSS rules of the document: class names of text and of cells, with their attributes. *)
Variables (txt_rules cell_rules : list (str * list (str * str))).

(** The class attribute for given CSS attributes: none without any, else a class whose rule has
    exactly these. *)
Definition class_for (rules : list (str * list (str * str))) (css a : list (str * str)) : Prop :=
  match css with
  | [] => a = []
  | _ => exists n, a = [(utf8 "class", n)] /\ In (n, css) rules
  end.

(** Nothing stands between two spans, so the texts of a paragraph's runs follow each other directly. *)
Definition span_shows (sp : span) (k : kid) : Prop :=
  exists a, k = (Elem (utf8 "span") a (sp_text sp) [], [])
    /\ class_for txt_rules (match sp_style sp with Some p => css_attrs p | None => [] end) a.

Definition not_sub (its : list litem) : Prop := match its with LSub _ _ :: _ => False | _ => True end.

(** A list: one li for each item; a nested list stands in the li of the item before it, or in
    one of its own if there is none or it already has a nested list. *)
Inductive list_shows : lvl -> list litem -> elem -> Prop :=
| ls_list l its x ks : breaks x -> items_show its ks ->
    list_shows l its (Elem (lvl_tag l) [(utf8 "class", lvl_class l)] x ks)
with items_show : list litem -> list kid -> Prop :=
| is_nil : items_show [] []
| is_item sps its x ks tail rest : not_sub its -> breaks x -> breaks tail -> Forall2 span_shows sps ks ->
    items_show its rest -> items_show (LItem sps :: its) ((Elem (utf8 "li") [] x ks, tail) :: rest)
| is_item_sub sps l sub its x ks e tl tail rest : breaks x -> breaks tl -> breaks tail -> Forall2 span_shows sps ks ->
    list_shows l sub e -> items_show its rest ->
    items_show (LItem sps :: LSub l sub :: its) ((Elem (utf8 "li") [] x (ks ++ [(e, tl)]), tail) :: rest)
| is_sub l sub its x e tl tail rest : breaks x -> breaks tl -> breaks tail -> list_shows l sub e -> items_show its rest ->
    items_show (LSub l sub :: its) ((Elem (utf8 "li") [] x [(e, tl)], tail) :: rest).

(** The attributes of a cell: how far it reaches, if more than one, and the class of its fill
    colour. *)
Definition cell_attributes (t : tcell) (a : list (str * str)) : Prop :=
  exists cls, a = (if (1 <? fst (tc_span t))%Z then [(utf8 "colspan", str_of_Z (fst (tc_span t)))] else [])
               ++ (if (1 <? snd (tc_span t))%Z then [(utf8 "rowspan", str_of_Z (snd (tc_span t)))] else []) ++ cls
    /\ class_for cell_rules (match tc_fill t with Some f => fill_css f | None => [] end) cls.

(** Paragraphs, lists and tables.  A table's cell is shown at its origin only; its contents are
    separated by line breaks. *)
Inductive shows : hunit -> elem -> Prop :=
| sw_par sps x ks : breaks x -> Forall2 span_shows sps ks -> shows (HPar sps) (Elem (utf8 "p") [] x ks)
| sw_list l its e : list_shows l its e -> shows (HList l its) e
| sw_table wid id rows x ks : breaks x -> rows_show 0 rows ks ->
    shows (HTable wid id rows) (Elem (utf8 "table") (match id with Some ((_ :: _) as i) => [(utf8 "id", i)] | _ => [] end) x ks)
with rows_show : Z -> list (list tcell) -> list kid -> Prop :=
| rs_nil y : rows_show y [] []
| rs_cons y row rows x ks tail rest : breaks x -> breaks tail -> cells_show y 0 row ks -> rows_show (y + 1) rows rest ->
    rows_show y (row :: rows) ((Elem (utf8 "tr") [] x ks, tail) :: rest)
with cells_show : Z -> Z -> list tcell -> list kid -> Prop :=
| cs_nil y x : cells_show y x [] []
| cs_skip y x t ts ks : tc_origin t <> (x, y) -> cells_show y (x + 1) ts ks -> cells_show y x (t :: ts) ks
| cs_cell y x t ts a ks tail rest : tc_origin t = (x, y) -> cell_attributes t a -> units_show (tc_elems t) ks -> breaks tail ->
    cells_show y (x + 1) ts rest -> cells_show y x (t :: ts) ((Elem (tc_tag t) a [] ks, tail) :: rest)
with units_show : list hunit -> list kid -> Prop :=
| us_nil : units_show [] []
| us_cons u us e tail ks : shows u e -> breaks tail -> units_show us ks -> units_show (u :: us) ((e, tail) :: ks).
End Shows.

(** ** Text *)

(** The texts of the spans of a part of the document, in order. *)
Fixpoint item_texts (i : litem) : list str :=
  match i with
  | LItem sps => map sp_text sps
  | LSub _ its => flat_map item_texts its
  end.
(** The texts of the span elements of an element, in document order. *)
Fixpoint span_texts (e : elem) : list str :=
  match e with
  | Elem t _ x ks => (if seqb t (utf8 "span") then [x] else []) ++ flat_map (fun k => span_texts (fst k)) ks
  end.

(** The class names given so far, at any moment while a document is rendered. *)
Inductive reached : caches -> Prop :=
| re_none : reached no_caches
| re_txt p c n c' : reached c -> txt_class p c = (n, c') -> reached c'
| re_cell f c n c' : reached c -> cell_class f c = (n, c') -> reached c'.

(** What is written for the docx cell [snd p] that begins in row [r], column [fst p] of the
    table [rows]: one element with its spans and its contents, which [pa] reads. *)
Definition cell_shown (txt_rules cell_rules : list (str * list (str * str))) (pa : list welem -> seen -> dres (list hunit * seen))
    (rows : list (list wcell)) (r : nat) (p : nat * wcell) (k : kid) : Prop :=
  exists a ks tail n us s1 s2, k = (Elem (cell_tag (wc_tc (snd p))) a [] ks, tail) /\ breaks tail
    /\ attr a_colspan (fst k) = span_written (wc_span (snd p))
    /\ height rows r (fst p) n /\ attr a_rowspan (fst k) = span_written n
    /\ pa (w_kids (wc_tc (snd p))) s1 = DOk (us, s2) /\ units_show txt_rules cell_rules us ks.

(** ** Reading a table back *)

(** A row of the docx table with a header cell of its own; the other rows hold the data. *)
Definition header_row (row : list wcell) : Prop := exists p, In p (own_cells row) /\ cell_tag (wc_tc (snd p)) = utf8 "th".
(** No cell reaches from or into a header row. *)
Definition separate (rows : list (list wcell)) : Prop :=
  forall r x, continued rows (S r) x ->
    (forall row, nth_error rows r = Some row -> ~ header_row row) /\ (forall row, nth_error rows (S r) = Some row -> ~ header_row row).
(** [k] is what the reader of [e] gets for the cell of row [r] that begins in column [x] and is
    [w] columns wide: the cell shown there, which begins in row [r0]; below its first row it has
    no rowspan attribute. *)
Definition cell_restored (txt_rules cell_rules : list (str * list (str * str))) (pa : list welem -> seen -> dres (list hunit * seen))
    (rows : list (list wcell)) (e : elem) (r : nat) (p : nat * wcell) (k : kid) : Prop :=
  exists r0 row0 c0 k0 tr tail j, (r0 <= r)%nat /\ nth_error rows r0 = Some row0 /\ nth_error (own_cells row0) j = Some (fst p, c0)
    /\ shown_at rows r (fst p) (wc_tc c0) /\ wc_span c0 = wc_span (snd p)
    /\ nth_error (e_kids e) r0 = Some (tr, tail) /\ nth_error (e_kids tr) j = Some k0 /\ cell_shown txt_rules cell_rules pa rows r0 (fst p, c0) k0
    /\ k = if (r0 =? r)%nat then k0 else (del_attr a_rowspan (fst k0), snd k0).
