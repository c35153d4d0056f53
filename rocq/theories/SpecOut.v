(** Independent vocabulary for C80: everything a document gives, entities and lint entries, in
    order. *)
From Coq Require Import NArith ZArith List Bool String.
From Verif Require Import PyStr Xml Json Lint RowIter Helpers Extract Document
  SpecText SpecFields SpecLabel SpecHeader SpecNames SpecRows SpecIter SpecTable SpecDoc SpecRun SpecReads SpecEnd SpecStage2.
Import ListNotations.
Local Open Scope list_scope.
Local Open Scope N_scope.

(** ** Header cells *)

(** A header known under another name is reported with both names. *)
Inductive header_entries (fig c : str) : list lint -> Prop :=
| he_variant v : known_variant c v ->
    header_entries fig c [mkLint T1006 fig (code_msg T1006) None [(utf8 "got", JStr c); (utf8 "expected", JStr v)]]
| he_plain : (forall v, ~ known_variant c v) -> header_entries fig c [].
Definition headers_told (fig : str) (tbl : elem) (ls : list lint) : Prop :=
  match children t_tr tbl with
  | [] => ls = []
  | tr :: _ => exists lss, ls = List.concat lss
      /\ Forall2 (fun k e => exists c, header_form (itertext (fst k)) c /\ header_entries fig c e) (e_kids tr) lss
  end.

(** ** Rows *)

(** What is reported of a range text [t] that was read as [r]. *)
Definition range_entries (fig t : str) (r : range) : list lint :=
  match r with
  | RInt lo hi => if (hi <? lo)%Z then [row_lint R1002 fig t []] else []
  | RDyn _ _ => []
  | RText _ => [row_lint R1001 fig t []]
  end.

(** A normalised label of none of the accepted forms. *)
Inductive label_validity (fig key l : str) : list lint -> Prop :=
| lk_valid : valid_label l -> label_validity fig key l []
| lk_invalid : ~ valid_label l -> label_validity fig key l [row_lint L1004 fig key [(utf8 "label", JStr l)]].

(** What is reported of the form of the label text [s] of a struct row ([same]: it is the
    content as well): no name in it; in a column of its own, no ':' or a space before it. *)
Inductive form_entries (same : bool) (fig key s : str) : list lint -> Prop :=
| fe_name name acr rest : same = true -> struct_text s name acr rest -> name ++ acr <> [] -> form_entries same fig key s []
| fe_empty rest : same = true -> struct_text s [] [] rest -> form_entries same fig key s [row_lint L1000 fig key []]
| fe_before h rest : same = false -> s = h ++ 58 :: rest -> ~ In 58 h -> ~ In 32 h -> form_entries same fig key s []
| fe_space h rest : same = false -> s = h ++ 58 :: rest -> ~ In 58 h -> In 32 h ->
    form_entries same fig key s [row_lint L1004 fig key []]
| fe_imputed : same = false -> ~ In 58 s -> form_entries same fig key s [row_lint L1003 fig key []].
Definition label_entries (same : bool) (fig key s : str) (ls : list lint) : Prop :=
  exists raw l a b, label_source same s raw /\ normal raw l /\ form_entries same fig key s a
    /\ label_validity fig key l b /\ ls = a ++ b.

(** ... and of the label text of a value row. *)
Definition colon_entries (fig key s : str) (ls : list lint) : Prop :=
  (In 58 s /\ ls = []) \/ (~ In 58 s /\ ls = [row_lint L1003 fig key []]).
Inductive value_entries (same : bool) (fig key s : str) : list lint -> Prop :=
| ve_reserved : same = true -> upper s = lbl_reserved -> value_entries same fig key s []
| ve_name name l ls : same = true -> upper s <> lbl_reserved -> value_text s name -> name <> [] ->
    value_name name l -> label_validity fig key l ls -> value_entries same fig key s ls
| ve_text l ls : same = true -> upper s <> lbl_reserved -> value_text s [] ->
    value_name s l -> label_validity fig key l ls ->
    value_entries same fig key s (row_lint L1000 fig key [] :: ls)
| ve_own_reserved : same = false -> lower s = utf8 "reserved" -> value_entries same fig key s []
| ve_own_word h a : same = false -> lower s <> utf8 "reserved" -> before_colon (lower s) h ->
    colon_entries fig key (lower s) a -> upper (upper (underscored h)) = lbl_reserved ->
    value_entries same fig key s a
| ve_own h l a b : same = false -> lower s <> utf8 "reserved" -> before_colon (lower s) h ->
    colon_entries fig key (lower s) a -> upper (upper (underscored h)) <> lbl_reserved ->
    value_name (upper (underscored h)) l -> label_validity fig key l b ->
    value_entries same fig key s (a ++ b).

(** What a row gives besides its field: entries, then the figures nested in it. *)
Inductive item := Entry (l : lint) | Nested (n : meta * elem).

Inductive row_items (x : xctx) (dyn : bool) (y : yrow) : list item -> Prop :=
| ri_regular k c l r ls :
    row_cells x (y_row y) k c l -> ~ special (to_text k) -> ~ special (to_text l) -> ~ special (to_text c) ->
    (if dyn then reads_formula (to_text k) r else reads_numbers (to_text k) r) ->
    label_entries (x_content x =? x_label x)%nat (x_fig x) (key_of_range r) (to_text l) ls ->
    row_items x dyn y (map Entry (range_entries (x_fig x) (to_text k) r ++ ls) ++ map Nested (nested_in x (key_of_range r) c))
| ri_special k c l r :
    row_cells x (y_row y) k c l -> ~ special (to_text k) -> special (to_text l) \/ special (to_text c) ->
    reads_numbers (to_text k) r -> row_items x dyn y (map Entry (range_entries (x_fig x) (to_text k) r))
| ri_special_range k c l : row_cells x (y_row y) k c l -> special (to_text k) -> row_items x dyn y []
| ri_short : (forall k c l, ~ row_cells x (y_row y) k c l) -> row_items x dyn y [].

(** All rows, up to the one that ends the table, and the figure split off there. *)
Definition ends_with (x : xctx) (y : yrow) (ex : option (meta * elem)) : Prop :=
  (forall k c l, ~ row_cells x (y_row y) k c l)
  /\ ((exists u, lower (to_text (y_row y)) = utf8 "note" ++ u) /\ ex = None
      \/ (forall u, lower (to_text (y_row y)) <> lbl_ellipsis ++ u) /\ (forall u, lower (to_text (y_row y)) <> utf8 "note" ++ u)
         /\ exists n, splits_off x y n /\ ex = Some n).
Inductive rows_items (x : xctx) : bool -> list yrow -> list item -> option (meta * elem) -> Prop :=
| is_end dyn : rows_items x dyn [] [] None
| is_header dyn y rest its ex :
    ~ data_row y -> rows_items x (dyn || announces_list (y_row y)) rest its ex -> rows_items x dyn (y :: rest) its ex
| is_row dyn y rest a b ex :
    data_row y -> ~ row_ends x y -> ~ row_fails x dyn y -> row_items x dyn y a ->
    rows_items x dyn rest b ex -> rows_items x dyn (y :: rest) (a ++ b) ex
| is_stop dyn y rest ex : data_row y -> ends_with x y ex -> rows_items x dyn (y :: rest) [] ex.

(** Value tables. *)
Inductive vrow_items (ov : overrides) (x : xctx) (y : yrow) : list item -> Prop :=
| vi_ellipsis k c : value_cells x (y_row y) k c -> lower (to_text k) = lbl_ellipsis -> vrow_items ov x y []
| vi_override k c l :
    value_cells x (y_row y) k c -> lower (to_text k) <> lbl_ellipsis -> overridden ov (x_fig x) (lower (to_text k)) l ->
    vrow_items ov x y (Entry (row_lint L1007 (x_fig x) (lower (to_text k)) []) :: map Nested (nested_in x (lower (to_text k)) c))
| vi_label k c s ls :
    value_cells x (y_row y) k c -> lower (to_text k) <> lbl_ellipsis -> not_overridden ov (x_fig x) (lower (to_text k)) ->
    label_cell_text x (y_row y) s ->
    value_entries (x_content x =? x_label x)%nat (x_fig x) (lower (to_text k)) s ls ->
    vrow_items ov x y (map Entry ls ++ map Nested (nested_in x (lower (to_text k)) c))
| vi_short : (forall k c, ~ value_cells x (y_row y) k c) -> vrow_items ov x y [].
Inductive vrows_items (ov : overrides) (x : xctx) : list yrow -> list item -> Prop :=
| vs_end : vrows_items ov x [] []
| vs_header y rest its : ~ data_row y -> vrows_items ov x rest its -> vrows_items ov x (y :: rest) its
| vs_row y rest a b :
    data_row y -> ~ vrow_ends x y -> vrow_items ov x y a -> vrows_items ov x rest b -> vrows_items ov x (y :: rest) (a ++ b)
| vs_stop y rest : data_row y -> vrow_ends x y -> vrows_items ov x (y :: rest) [].

Definition table_items (P : parser) (x : xctx) (rows : list yrow) (its : list item) (ex : option (meta * elem)) : Prop :=
  match ec_kind (x_cls x) with
  | EKStruct _ => rows_items x false rows its ex
  | EKValues => vrows_items (p_label_overrides P) x rows its /\ ex = None
  end.

(** What a row that cannot be read reports before it is given up. *)
Definition failing_row (P : parser) (x : xctx) (above : list yrow) (y : yrow) (ls : list lint) : Prop :=
  data_row y /\
  match ec_kind (x_cls x) with
  | EKStruct _ => row_fails x (lists_above above) y /\ ls = []
  | EKValues => vrow_fails (p_label_overrides P) x y
      /\ exists k c, value_cells x (y_row y) k c
           /\ ls = if (x_content x =? x_label x)%nat then [row_lint L1000 (x_fig x) (lower (to_text k)) []] else []
  end.

(** ** The checks on the finished figure *)

(** For each field: a label that is there already, then a gap to or an overlap with the field
    before it. *)
Definition field_entries (fig : str) (bf : list sfield * sfield) : list lint :=
  (if repeated_label bf then [row_lint L1002 fig (field_key (snd bf)) [(utf8 "label", JStr (sf_label (snd bf)))]] else [])
  ++ match List.rev (fst bf) with
     | p :: _ => (if overlapping (p, snd bf) then [row_lint T1001 fig (field_key (snd bf)) []] else [])
                 ++ (if gapping (p, snd bf) then [row_lint T1002 fig (field_key (snd bf)) []] else [])
     | [] => []
     end.
Definition vfield_entries (fig : str) (bf : list vfield * vfield) : list lint :=
  (if repeated_vlabel bf then [row_lint L1002 fig (vf_val (snd bf)) [(utf8 "label", JStr (vf_label (snd bf)))]] else [])
  ++ (if repeated_value bf then [row_lint V1002 fig (vf_val (snd bf)) []] else []).
Definition checks_told (fig : str) (b : body) (ls : list lint) : Prop :=
  match b with
  | BStruct _ fs => (out_of_order fs /\ ls = [mkLint T1004 fig (code_msg T1004) None []])
                    \/ (~ out_of_order fs /\ ls = flat_map (field_entries fig) (with_earlier [] fs))
  | BValues fs => ls = flat_map (vfield_entries fig) (with_earlier [] fs)
  end.

(** ** Figures *)

(** How a figure ends: complete; with an error that has been reported; with one that has not. *)
Inductive ending := Complete | Reported | Unreported.
Definition after (e : ending) : ending := match e with Complete => Complete | _ => Reported end.
(** The entry for a figure given up, unless the error has been reported already. *)
Definition given_up (m : meta) : lint :=
  mkLint T1000 (m_fig m) (code_msg T1000) None (match m_title m with Some t => [(utf8 "title", JStr t)] | None => [] end).
Definition given_up_after (m : meta) (e : ending) : list event :=
  match e with Unreported => [EvLint (given_up m)] | _ => [] end.
Definition no_extractor (m : meta) (hs : list str) : lint :=
  mkLint T1007 (m_fig m) (code_msg T1007) None [(utf8 "columns", JList (map JStr hs))].

Inductive outputs (P : parser) : meta * elem -> ending -> list event -> Prop :=
(* no extractor applies to its columns *)
| ou_columns m tbl hs hls :
    lookup_fig (p_fig_overrides P) (m_fig m) = None -> table_headers tbl hs -> unsupported hs ->
    headers_told (m_fig m) tbl hls ->
    outputs P (m, tbl) Complete (map EvLint hls ++ [EvLint (no_extractor m hs)])
(* its own extractor does not *)
| ou_unrecognised m tbl hls :
    unrecognised P m tbl -> headers_told (m_fig m) tbl hls -> outputs P (m, tbl) Unreported (map EvLint hls)
(* the rows and the figures nested in them, the checks, the figure *)
| ou_table m tbl x rows ok hls its es b cs :
    handled P m tbl x -> headers_told (m_fig m) tbl hls -> table_rows tbl rows ok ->
    table_items P x rows its None -> comes_to_end x tbl -> table_gives P x tbl b ->
    item_outputs P its es -> checks_told (m_fig m) b cs ->
    outputs P (m, tbl) Complete (map EvLint hls ++ es ++ map EvLint cs ++ [EvEnt (mkEntity m b)])
(* ... and the figure split off *)
| ou_split m tbl x rows ok hls its es b cs n e en :
    handled P m tbl x -> headers_told (m_fig m) tbl hls -> table_rows tbl rows ok ->
    table_items P x rows its (Some n) -> comes_to_end x tbl -> table_gives P x tbl b ->
    item_outputs P its es -> checks_told (m_fig m) b cs -> outputs P n e en ->
    outputs P (m, tbl) (after e)
      (map EvLint hls ++ es ++ map EvLint cs ++ [EvEnt (mkEntity m b)] ++ en ++ given_up_after m e)
(* a row that cannot be read *)
| ou_row m tbl x hls its es a y b ok ls :
    handled P m tbl x -> headers_told (m_fig m) tbl hls ->
    table_rows tbl (a ++ y :: b) ok -> (forall z, In z a -> data_row z -> ~ last_row x z) ->
    table_items P x a its None -> failing_row P x a y ls -> item_outputs P its es ->
    outputs P (m, tbl) Reported (map EvLint hls ++ es ++ map EvLint ls ++ [EvLint (given_up m)])
(* row and column spans that do not fit *)
| ou_spans m tbl x rows hls its es :
    handled P m tbl x -> headers_told (m_fig m) tbl hls ->
    table_rows tbl rows false -> (forall z, In z rows -> data_row z -> ~ last_row x z) ->
    table_items P x rows its None -> item_outputs P its es ->
    outputs P (m, tbl) Reported (map EvLint hls ++ es ++ [EvLint (given_up m)])
(* a nested figure with an error *)
| ou_nested m tbl x hls a b ok its n rest ex es e en :
    handled P m tbl x -> headers_told (m_fig m) tbl hls ->
    table_rows tbl (a ++ b) ok -> table_items P x a (its ++ Nested n :: rest) ex ->
    item_outputs P its es -> outputs P n e en -> e <> Complete ->
    outputs P (m, tbl) Reported (map EvLint hls ++ es ++ en ++ given_up_after m e)
with item_outputs (P : parser) : list item -> list event -> Prop :=
| io_none : item_outputs P [] []
| io_entry l its es : item_outputs P its es -> item_outputs P (Entry l :: its) (EvLint l :: es)
| io_nested n its en es : outputs P n Complete en -> item_outputs P its es -> item_outputs P (Nested n :: its) (en ++ es).

(** ** Documents *)

(** An error ends the extraction, unless it was reported and errors are to be skipped. *)
Definition goes_on (P : parser) (e : ending) : Prop := e = Complete \/ (e = Reported /\ p_skip P = true).

(** [ok]: it does not end with an exception; [n]: number of the next figure without an id. *)
Inductive doc_outputs (P : parser) : N -> list elem -> bool -> list event -> Prop :=
| do_end n : doc_outputs P n [] true []
| do_rowless n t ts : rowless t -> doc_outputs P n (t :: ts) false []
| do_untitled n t ts ok es : untitled t -> doc_outputs P n ts ok es -> doc_outputs P n (t :: ts) ok es
| do_no_id n t title ts ok es :
    unidentified t title -> doc_outputs P (n + 1) ts ok es ->
    doc_outputs P n (t :: ts) ok (EvLint (lint_no_id n title) :: es)
| do_figure n t m tbl e en ts ok es :
    identified t m tbl -> outputs P (m, tbl) e en -> goes_on P e -> doc_outputs P n ts ok es ->
    doc_outputs P n (t :: ts) ok (en ++ es)
| do_raise n t m tbl e en ts :
    identified t m tbl -> outputs P (m, tbl) e en -> ~ goes_on P e -> doc_outputs P n (t :: ts) false en.

(** ** The lint list of the JSON file *)
Definition says_lint (l : lint) (j : json) : Prop :=
  object j ([("code"%string, JStr (code_name (l_code l))); ("msg"%string, JStr (l_msg l));
             ("fig"%string, JStr (l_fig l)); ("context"%string, JObj (l_ctx l))] ++ optional "row" (l_row l)).
