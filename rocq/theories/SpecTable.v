(** Independent specification of what the rows of a table give.  A row is described by the
    texts of its cells; [x] only supplies the column numbers and the kind of table. *)
From Coq Require Import NArith ZArith List Bool String.
From Verif Require Import PyStr Xml Lint RowIter Helpers Extract SpecText SpecFields SpecLabel SpecHeader SpecNames.
Import ListNotations.
Local Open Scope list_scope.
Local Open Scope N_scope.

Definition lbl_obsolete : str := utf8 "OBSOLETE".

(** How a range text is read: as numbers ... *)
Inductive reads_numbers (t : str) : range -> Prop :=
| rn_two hi lo : two_numbers t hi lo -> convertible hi -> convertible lo ->
    reads_numbers t (RInt (Z.of_N (dec_value lo)) (Z.of_N (dec_value hi)))
| rn_one n : one_number t n -> convertible n ->
    reads_numbers t (RInt (Z.of_N (dec_value n)) (Z.of_N (dec_value n)))
| rn_text : ~ begins isdigit t -> reads_numbers t (RText t).
(** ... or, in the part of the table that describes a list, as formulas. *)
Inductive reads_formula (t : str) : range -> Prop :=
| rf_two a b : formula_range t a b -> reads_formula t (RDyn b a)
| rf_text : (forall a b, ~ formula_range t a b) -> reads_formula t (RText t).

(** A special word: reserved or obsolete in any letter case, the ellipsis, or a note. *)
Definition special (t : str) : Prop :=
  upper t = lbl_reserved \/ upper t = lbl_obsolete \/ upper t = lbl_ellipsis
  \/ exists u, lower t = utf8 "note" ++ u.

(** The cells the extractor looks at: range or value, content, label (its first paragraph). *)
Definition row_cells (x : xctx) (row : elem) (key content label : elem) : Prop :=
  nth_error (children t_td row) (x_key x) = Some key
  /\ nth_error (children t_td row) (x_content x) = Some content
  /\ exists td, nth_error (children t_td row) (x_label x) = Some td
                /\ nth_error (children t_p td) 0 = Some label.

(** What is taken from a label cell with the text [s] ([same]: it is the content cell as well):
    the acronym, a special word, the initials of the name, or the text as it is; in a column of
    its own, what stands before the first ':', or the initials. *)
Inductive label_source (same : bool) (s : str) : str -> Prop :=
| la_acronym name acr rest : same = true -> struct_text s name acr rest -> acr <> [] -> label_source same s acr
| la_word name rest : same = true -> struct_text s name [] rest -> name <> [] ->
    In (upper name) [lbl_reserved; lbl_ellipsis; lbl_obsolete] -> label_source same s name
| la_name name rest us : same = true -> struct_text s name [] rest -> name <> [] ->
    ~ In (upper name) [lbl_reserved; lbl_ellipsis; lbl_obsolete] -> words_of name us ->
    label_source same s (lower (first_letters us))
| la_text rest : same = true -> struct_text s [] [] rest -> label_source same s s
| la_before h rest : same = false -> s = h ++ 58 :: rest -> ~ In 58 h -> label_source same s h
| la_words us : same = false -> ~ In 58 s -> words_of s us -> label_source same s (first_letters us).
(** The brief of a struct field: an empty one is left out. *)
Definition kept_brief (t : str) (b : option str) : Prop :=
  exists o, brief_told t o /\ b = match o with Some [] => None | _ => o end.

(** A row with too few cells is passed over: usually if it has one cell; some extractors pass
    over rows that end with a certain text instead. *)
Definition tolerated (x : xctx) (y : yrow) : Prop :=
  match ec_handler (x_cls x) with
  | HDefault => exists td, children t_td (y_row y) = [td]
  | HSplit _ _ => False
  | HSkipSuffix suf => exists u, to_text (y_row y) = u ++ suf
  end.
(** Other extractors split off another figure at a row that begins with a certain text: the rows
    below it.  The text is its title if it has the word Figure in it. *)
Definition split_title (t : str) (title : option str) : Prop :=
  ((exists a b, t = a ++ utf8 "Figure" ++ b) /\ title = Some t)
  \/ ((forall a b, t <> a ++ utf8 "Figure" ++ b) /\ title = None).
Definition splits_off (x : xctx) (y : yrow) (n : meta * elem) : Prop :=
  match ec_handler (x_cls x) with
  | HSplit prefix fig =>
      exists u title, lower (to_text (y_row y)) = prefix ++ u /\ split_title (to_text (y_row y)) title
        /\ n = (mkMeta title fig None, Elem t_table [] [] (y_sibs y))
  | _ => False
  end.

Definition ellipsis_field : sfield := mkSField lbl_ellipsis (RInt (-1) (-1)) None.

(** What a data row of a struct table gives: a field, or nothing.  [dyn]: list mode. *)
Inductive row_gives (x : xctx) (dyn : bool) (y : yrow) : option sfield -> Prop :=
| rg_regular k c l r raw lbl b :
    row_cells x (y_row y) k c l ->
    ~ special (to_text k) -> ~ special (to_text l) -> ~ special (to_text c) ->
    (if dyn then reads_formula (to_text k) r else reads_numbers (to_text k) r) ->
    label_source (x_content x =? x_label x)%nat (to_text l) raw -> normal raw lbl -> kept_brief (to_text c) b ->
    row_gives x dyn y (Some (mkSField (lower lbl) r b))
| rg_special_range k c l :
    row_cells x (y_row y) k c l -> special (to_text k) -> row_gives x dyn y None
| rg_special_content k c l r lbl :
    row_cells x (y_row y) k c l -> ~ special (to_text k) -> reads_numbers (to_text k) r ->
    In lbl [lbl_reserved; lbl_obsolete; lbl_ellipsis] -> upper (to_text c) = lbl ->
    row_gives x dyn y (Some (mkSField lbl r None))
| rg_special_other k c l r :
    row_cells x (y_row y) k c l -> ~ special (to_text k) -> reads_numbers (to_text k) r ->
    special (to_text l) \/ special (to_text c) ->
    ~ In (upper (to_text c)) [lbl_reserved; lbl_obsolete; lbl_ellipsis] ->
    row_gives x dyn y None
| rg_ellipsis u :
    (forall k c l, ~ row_cells x (y_row y) k c l) ->
    lower (to_text (y_row y)) = lbl_ellipsis ++ u ->
    row_gives x dyn y (Some ellipsis_field)
| rg_tolerated :
    (forall k c l, ~ row_cells x (y_row y) k c l) ->
    (forall u, lower (to_text (y_row y)) <> lbl_ellipsis ++ u) ->
    (forall u, lower (to_text (y_row y)) <> utf8 "note" ++ u) ->
    tolerated x y ->
    row_gives x dyn y None.

(** A row that ends the table: too few cells, and a note or the start of another figure. *)
Inductive row_ends (x : xctx) (y : yrow) : Prop :=
| re_note u :
    (forall k c l, ~ row_cells x (y_row y) k c l) ->
    lower (to_text (y_row y)) = utf8 "note" ++ u -> row_ends x y
| re_split n :
    (forall k c l, ~ row_cells x (y_row y) k c l) ->
    (forall u, lower (to_text (y_row y)) <> lbl_ellipsis ++ u) ->
    (forall u, lower (to_text (y_row y)) <> utf8 "note" ++ u) ->
    splits_off x y n -> row_ends x y.

(** The text of the elements in those cells of a row that have a colspan. *)
Definition wide_text (row : elem) : str :=
  List.concat (map (fun c => List.concat (map (fun k => to_text (fst k)) (e_kids c)))
    (filter (fun c => match attr a_colspan c with Some _ => true | None => false end) (map fst (e_kids row)))).
(** "List" occurs in it. *)
Definition announces_list (row : elem) : bool :=
  existsb (fun n => seqb (firstn 4 (skipn n (wide_text row))) (utf8 "List")) (seq 0 (List.length (wide_text row))).

(** The fields given by the rows of a table, in the order of the rows.  A header row gives
    nothing and may switch list mode on. *)
Inductive rows_give (x : xctx) : bool -> list yrow -> list sfield -> Prop :=
| tg_end dyn : rows_give x dyn [] []
| tg_header dyn y rest fs :
    children t_th (y_row y) <> [] ->
    rows_give x (dyn || announces_list (y_row y)) rest fs -> rows_give x dyn (y :: rest) fs
| tg_field dyn y rest f fs :
    children t_th (y_row y) = [] -> row_gives x dyn y (Some f) ->
    rows_give x dyn rest fs -> rows_give x dyn (y :: rest) (f :: fs)
| tg_nothing dyn y rest fs :
    children t_th (y_row y) = [] -> row_gives x dyn y None ->
    rows_give x dyn rest fs -> rows_give x dyn (y :: rest) fs
| tg_stop dyn y rest :
    children t_th (y_row y) = [] -> row_ends x y -> rows_give x dyn (y :: rest) [].

(** ** Value tables *)

(** The two cells every value row needs. *)
Definition value_cells (x : xctx) (row : elem) (key content : elem) : Prop :=
  nth_error (children t_td row) (x_key x) = Some key
  /\ nth_error (children t_td row) (x_content x) = Some content.

Definition ellipsis_value : vfield := mkVField lbl_ellipsis lbl_ellipsis None.

(** The text of the label cell: that of its first paragraph. *)
Definition label_cell_text (x : xctx) (row : elem) (s : str) : Prop :=
  exists td p ps, nth_error (children t_td row) (x_label x) = Some td /\ children t_p td = p :: ps /\ s = to_text p.
(** What stands before the first ':', or everything; spaces as underscores. *)
Definition before_colon (s h : str) : Prop := ~ In 58 h /\ (s = h \/ exists r, s = h ++ 58 :: r).
Definition underscored (s : str) : str := map (fun c => if c =? 32 then 95 else c) s.
(** A label of a value row: numbers at the beginning moved, normalised. *)
Definition value_name (raw l : str) : Prop := exists m, moved raw m /\ normal m l.
(** The label given to a value row with the text [s] in the label column ([same]: it is the
    content column as well): reserved, or what is taken from the text. *)
Inductive value_label (same : bool) (s : str) : str -> Prop :=
| vl_reserved : same = true -> upper s = lbl_reserved -> value_label same s lbl_reserved
| vl_name name l : same = true -> upper s <> lbl_reserved -> value_text s name -> name <> [] ->
    value_name name l -> value_label same s l
| vl_text l : same = true -> upper s <> lbl_reserved -> value_text s [] -> value_name s l -> value_label same s l
| vl_own_reserved : same = false -> lower s = utf8 "reserved" -> value_label same s lbl_reserved
| vl_own_word h : same = false -> lower s <> utf8 "reserved" -> before_colon (lower s) h ->
    upper (upper (underscored h)) = lbl_reserved -> value_label same s lbl_reserved
| vl_own h l : same = false -> lower s <> utf8 "reserved" -> before_colon (lower s) h ->
    upper (upper (underscored h)) <> lbl_reserved -> value_name (upper (underscored h)) l -> value_label same s l.

(** The configured label overrides: the label of a figure's value, or none. *)
Definition overridden (ov : list ((str * str) * str)) (fig v l : str) : Prop :=
  exists before after, ov = before ++ ((fig, v), l) :: after /\ ~ In (fig, v) (map fst before).
Definition not_overridden (ov : list ((str * str) * str)) (fig v : str) : Prop := ~ In (fig, v) (map fst ov).

Inductive vrow_gives (ov : overrides) (x : xctx) (y : yrow) : option vfield -> Prop :=
| vg_ellipsis k c :
    value_cells x (y_row y) k c -> lower (to_text k) = lbl_ellipsis ->
    vrow_gives ov x y (Some ellipsis_value)
| vg_override k c l b :
    value_cells x (y_row y) k c -> lower (to_text k) <> lbl_ellipsis ->
    overridden ov (x_fig x) (lower (to_text k)) l -> brief_told (to_text c) b ->
    vrow_gives ov x y (Some (mkVField (lower (to_text k)) l b))
| vg_label k c s l b :
    value_cells x (y_row y) k c -> lower (to_text k) <> lbl_ellipsis ->
    not_overridden ov (x_fig x) (lower (to_text k)) ->
    label_cell_text x (y_row y) s -> value_label (x_content x =? x_label x)%nat s l -> brief_told (to_text c) b ->
    vrow_gives ov x y (Some (mkVField (lower (to_text k)) l b))
| vg_short_ellipsis u :
    (forall k c, ~ value_cells x (y_row y) k c) -> lower (to_text (y_row y)) = lbl_ellipsis ++ u ->
    vrow_gives ov x y (Some ellipsis_value)
| vg_short :
    (forall k c, ~ value_cells x (y_row y) k c) ->
    (forall u, lower (to_text (y_row y)) <> lbl_ellipsis ++ u) ->
    (forall u, lower (to_text (y_row y)) <> utf8 "notes:" ++ u) ->
    vrow_gives ov x y None.

Inductive vrows_give (ov : overrides) (x : xctx) : list yrow -> list vfield -> Prop :=
| vt_end : vrows_give ov x [] []
| vt_header y rest fs :
    children t_th (y_row y) <> [] -> vrows_give ov x rest fs -> vrows_give ov x (y :: rest) fs
| vt_field y rest f fs :
    children t_th (y_row y) = [] -> vrow_gives ov x y (Some f) ->
    vrows_give ov x rest fs -> vrows_give ov x (y :: rest) (f :: fs)
| vt_nothing y rest fs :
    children t_th (y_row y) = [] -> vrow_gives ov x y None ->
    vrows_give ov x rest fs -> vrows_give ov x (y :: rest) fs
| vt_stop y rest u :
    children t_th (y_row y) = [] -> (forall k c, ~ value_cells x (y_row y) k c) ->
    lower (to_text (y_row y)) = utf8 "notes:" ++ u -> vrows_give ov x (y :: rest) [].
