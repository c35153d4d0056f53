(** src/spex/jsonspec/extractors/{figure,structtable,valuetable}.py *)
From Coq Require Import NArith ZArith List Bool String.
From Verif Require Import PyStr Regex Regexes Xml Json Lint RowIter Helpers.
Import ListNotations.
Local Open Scope N_scope.
Local Open Scope m_scope.

(** ** Extractor classes *)

(** figure.py:28-31, RowErrPolicy *)
Inductive policy := PStop | PContinue | PRaise.

(** Which [row_err_handler] a struct extractor class has. *)
Inductive handler :=
| HDefault                                  (* structtable.py:107-123 *)
| HSplit (title_prefix new_fig : str)       (* quirks/nvm.py:24-57, quirks/mi.py:24-48 *)
| HSkipSuffix (suffix : str).               (* quirks/kv.py:15-27 *)

Inductive ekind := EKStruct (k : skind) | EKValues.

(** An extractor class: its kind, the accepted headers of its three columns, and its
    row error hook. *)
Record ecls := mkCls {
  ec_kind : ekind;
  ec_key_hdrs : list str;       (* range_column_hdrs / value_column_hdrs *)
  ec_label_hdrs : list str;
  ec_content_hdrs : list str;
  ec_handler : handler }.

Definition h_bits : str := Eval compute in utf8 "bits".
Definition h_bytes : str := Eval compute in utf8 "bytes".
Definition h_value : str := Eval compute in utf8 "value".
Definition h_values : str := Eval compute in utf8 "values".
Definition h_description : str := Eval compute in utf8 "description".
Definition h_definition : str := Eval compute in utf8 "definition".
Definition h_power_scope : str := Eval compute in utf8 "power scope".
Definition h_attribute : str := Eval compute in utf8 "attribute".

(** structtable.py:468-475 with figure.py:175-204 *)
Definition BitsTableExtractor : ecls :=
  mkCls (EKStruct KBits) [h_bits] [h_attribute; h_description] [h_description] HDefault.
(** structtable.py:478-485 with figure.py:175-204 *)
Definition BytesTableExtractor : ecls :=
  mkCls (EKStruct KBytes) [h_bytes] [h_attribute; h_description] [h_description] HDefault.
(** valuetable.py:130-175 *)
Definition ValueTableExtractor : ecls :=
  mkCls EKValues [h_value; h_values]
        [h_attribute; h_definition; h_description; h_power_scope]
        [h_definition; h_description; h_power_scope] HDefault.

(** ** Column mapping *)

(** helpers.py:125-136: the chosen header of each semantic column. *)
Record mapping := mkMap { mp_key : str; mp_label : str; mp_content : str }.

(** [next((hdr for hdr in hdrs if hdr in accepted), None)] *)
Definition first_hdr (hdrs accepted : list str) : option str :=
  find (fun h => smem h accepted) hdrs.

(** figure.py:124-153 can_apply, structtable.py:86-98 and valuetable.py:35-58 _can_apply *)
Definition can_apply (c : ecls) (hdrs : list str) : option mapping :=
  match first_hdr hdrs (ec_key_hdrs c), first_hdr hdrs (ec_label_hdrs c),
        first_hdr hdrs (ec_content_hdrs c) with
  | Some k, Some l, Some d => Some (mkMap k l d)
  | Some k, _, _ =>
      match ec_kind c with
      | EKValues =>
          if (N.of_nat (List.length hdrs) =? 2) && seqb k h_value then
            match find (fun h => negb (seqb h h_value)) hdrs with
            | Some [] => None                    (* "if other_col:" is false *)
            | Some o => Some (mkMap k o o)
            | None => None
            end
          else None
      | EKStruct _ => None
      end
  | None, _, _ => None
  end.

(** structtable.py:80-84, valuetable.py:62-66: [col_ndxs = {hdr: ndx ...}] then indexing;
    a repeated header keeps its last index.  [None] would be KeyError. *)
Fixpoint col_index (hdrs : list str) (h : str) (n : nat) (acc : option nat) : option nat :=
  match hdrs with
  | [] => acc
  | x :: r => col_index r h (S n) (if seqb x h then Some n else acc)
  end.

(** An extractor instance (figure.py:38-55, structtable.py:78-84, valuetable.py:60-66). *)
Record xctx := mkX {
  x_cls : ecls;
  x_meta : meta;
  x_key : nat;        (* _col_ndx_range / _col_ndx_value *)
  x_label : nat;      (* _col_ndx_label *)
  x_content : nat }.  (* _col_ndx_content *)

Definition x_fig (x : xctx) : str := m_fig (x_meta x).

(** figure.py:87-102, FigureExtractor.add_issue (the figure is always the extractor's own) *)
Definition issue (x : xctx) (c : code) (row : option str) (ctx : list (str * json)) : M unit :=
  add_issue c (x_fig x) row ctx.

(** figure.py:34-35 *)
Definition BRIEF_MAXLEN : N := 60.

(** figure.py:110-117, extract_data_sub_table: every table directly inside the cell *)
Definition extract_data_sub_table (parse : meta -> elem -> M unit) (m : meta) (data : elem)
  : M unit := iterM (parse m) (children t_table data).

(** ** Struct tables *)

(** structtable.py:104-105, _range_to_row_key *)
Definition range_row_key (r : range) : str :=
  match r with RInt lo _ => str_of_Z lo | RDyn lo _ => lo | RText s => s end.

(** structtable.py:287-298 and 300-311, valuetable.py:223-224 and 229-230 *)
Definition key_elem (x : xctx) (row : elem) : option elem := nth_child t_td (x_key x) row.
Definition content_elem (x : xctx) (row : elem) : option elem :=
  nth_child t_td (x_content x) row.
(** structtable.py:313-323, label_elem; valuetable.py:235 *)
Definition label_elem (x : xctx) (row : elem) : option elem :=
  match nth_child t_td (x_label x) row with
  | Some td => nth_child t_p 0 td
  | None => None
  end.

(** structtable.py:340-356, _extract_fields; [None] is XPathElementNotFoundException.
    The content element is returned too (structtable.py:200 queries it again). *)
Definition extract_fields (x : xctx) (row : elem) : option (str * str * str * elem) :=
  match key_elem x row, content_elem x row, label_elem x row with
  | Some r, Some c, Some l => Some (to_text r, to_text c, to_text l, c)
  | _, _, _ => None
  end.

(** structtable.py:440-442, is_special_case *)
Definition is_special_case (s : str) : bool :=
  smem (upper s) SPECIAL_CASE_SET || startswith (utf8 "note") (lower s).

(** structtable.py:325-338, _struct_field: an empty brief is left out *)
Definition struct_field (r : range) (label : str) (brief : option str) : sfield :=
  mkSField label r (match brief with Some [] => None | b => b end).

(** structtable.py:444-465, handle_special_case *)
Definition handle_special_case (content : str) (r : range) : option sfield :=
  if seqb content ELLIPSIS then Some (struct_field r ELLIPSIS None)
  else if seqb (upper content) RESERVED then Some (struct_field r RESERVED None)
  else if seqb (upper content) OBSOLETE then Some (struct_field r OBSOLETE None)
  else None.

(** structtable.py:404-425, _parse_range *)
Definition parse_range (x : xctx) (value row_key : str) : M range :=
  match re_match RANGE_REGEX value with
  | None => issue x R1001 (Some row_key) [] ;; ret (RText value)
  | Some g =>
      match group G_high g with
      | None => throw EValueError                (* group "high" always participates *)
      | Some hs =>
          match py_int hs with
          | None => throw EValueError
          | Some high =>
              match (match group G_low g with
                     | Some ls => py_int ls
                     | None => Some high
                     end) with
              | None => throw EValueError
              | Some low =>
                  (if Z.ltb high low then issue x R1002 (Some row_key) [] else ret tt) ;;
                  ret (RInt low high)
              end
          end
      end
  end.

(** structtable.py:430-438, _parse_dynamic_range *)
Definition parse_dynamic_range (x : xctx) (field_range : str) : M range :=
  let cleaned := replace_char 32 [] (replace_char 10 [] field_range) in
  match re_match DYNAMIC_RANGE_REGEX cleaned with
  | None => issue x R1001 (Some field_range) [] ;; ret (RText field_range)
  | Some g =>
      match group G_low g, group G_high g with
      | Some high, Some low => ret (RDyn low high)
      | _, _ => throw EValueError                (* both groups always participate *)
      end
  end.

(** structtable.py:358-369, _extract_label_separate_column *)
Definition extract_label_separate (x : xctx) (label row_key : str) : M str :=
  match split1 58 label with
  | (h, None) => issue x L1003 (Some row_key) [] ;; ret (initials h)
  | (h, Some _) =>
      (if has_char 32 h then issue x L1004 (Some row_key) [] else ret tt) ;; ret h
  end.

(** structtable.py:371-389, _extract_label_same_column *)
Definition extract_label_same (x : xctx) (label row_key : str) : M str :=
  match re_match STRUCT_LABEL_REGEX label with
  | None =>
      issue x L1003 (Some row_key) [] ;; ret (generate_acronym (fst (split1 58 label)))
  | Some g =>
      match grp_nonempty G_acronym (Some g) with
      | Some a => ret a
      | None =>
          match grp_nonempty G_label (Some g) with
          | Some text =>
              if smem (upper text) SPECIAL_CASE_SET then ret text
              else ret (generate_acronym text)
          | None => issue x L1000 (Some row_key) [] ;; ret label
          end
      end
  end.

(** structtable.py:391-402, _parse_label *)
Definition parse_label (x : xctx) (label row_key : str) : M str :=
  l <- (if Nat.eqb (x_content x) (x_label x) then extract_label_same x label row_key
        else extract_label_separate x label row_key) ;;
  let l' := normalize_label l in
  validate_label l' (x_fig x) row_key ;;
  ret (lower l').

(** structtable.py:223-226, field_get_range *)
Definition field_range (f : sfield) : option range :=
  if seqb (sf_label f) ELLIPSIS then None
  else match sf_range f with RText _ => None | r => Some r end.

Definition low_int (r : range) : option Z := match r with RInt lo _ => Some lo | _ => None end.
Definition high_int (r : range) : option Z := match r with RInt _ hi => Some hi | _ => None end.

(** structtable.py:229-246: the row order loop; [true] means "reversed" was found. *)
Fixpoint order_loop (prev : option range) (fs : list sfield) : bool :=
  match fs with
  | [] => false
  | f :: r =>
      match field_range f with
      | None => order_loop None r
      | Some cur =>
          match prev with
          | None => order_loop (Some cur) r
          | Some p =>
              match low_int p, low_int cur with
              | Some a, Some b => if Z.ltb b a then true else order_loop prev r
              | _, _ => order_loop prev r
              end
          end
      end
  end.

(** structtable.py:251-285: the overlap/gap/duplicate loop over all fields but the first. *)
Fixpoint pair_loop (x : xctx) (labels : list str) (prev : option range) (fs : list sfield)
  : M unit :=
  match fs with
  | [] => ret tt
  | f :: r =>
      let lbl := sf_label f in
      let plain := negb (smem lbl [RESERVED; ELLIPSIS]) in
      (if plain && smem lbl labels
       then issue x L1002 (Some (range_row_key (sf_range f))) [(utf8 "label", JStr lbl)]
       else ret tt) ;;
      let labels' := if plain then lbl :: labels else labels in
      if seqb lbl ELLIPSIS then pair_loop x labels' None r
      else
        match field_range f with
        | None => pair_loop x labels' None r
        | Some cur =>
            (match prev with
             | Some p =>
                 match high_int p, low_int cur with
                 | Some a, Some b =>
                     if Z.leb b a then issue x T1001 (Some (range_row_key cur)) []
                     else if negb (Z.eqb (a + 1) b)
                     then issue x T1002 (Some (range_row_key cur)) []
                     else ret tt
                 | _, _ => ret tt
                 end
             | None => ret tt
             end) ;;
            pair_loop x labels' (Some cur) r
        end
  end.

(** structtable.py:219-285, StructTableExtractor.validate_fields *)
Definition validate_struct (x : xctx) (fs : list sfield) : M unit :=
  match fs with
  | [] | [_] => ret tt
  | f0 :: r =>
      if order_loop (field_range f0) fs then issue x T1004 None []
      else pair_loop x [sf_label f0] (field_range f0) r
  end.

(** The extra figure a splitting quirk found inside the table. *)
Definition extra := option (meta * elem).

(** document.py:151-154, _on_extract_figure_title *)
Definition extract_figure_title (tr : elem) : option str :=
  let t := to_text tr in if contains (utf8 "Figure") t then Some t else None.

(** structtable.py:107-123; quirks/nvm.py:24-57; quirks/mi.py:24-48; quirks/kv.py:15-27:
    row_err_handler.  None of them yields entities. *)
Definition row_err_handler (h : handler) (y : yrow) : policy * extra :=
  match h with
  | HDefault =>
      match children t_td (y_row y) with
      | [_] => (PContinue, None)
      | _ => (PRaise, None)
      end
  | HSplit prefix fig =>
      if startswith prefix (lower (lstrip_by isspace (to_text (y_row y)))) then
        (PStop, Some (mkMeta (extract_figure_title (y_row y)) fig None,
                      Elem t_table [] [] (y_sibs y)))
      else (PRaise, None)
  | HSkipSuffix suf =>
      if endswith suf (to_text (y_row y)) then (PContinue, None) else (PRaise, None)
  end.

(** structtable.py:130-134: does this header row switch to dynamic list mode? *)
Definition is_list_header (row : elem) : bool :=
  contains (utf8 "List") (extract_possible_colspan row).

(** structtable.py:129-204, the row loop.  [rows]/[fin] is the row iterator. *)
Fixpoint struct_loop (parse : meta -> elem -> M unit) (x : xctx) (rows : list yrow)
    (fin : option exn) (dyn : bool) (fields : list sfield) : M (list sfield * extra) :=
  match rows with
  | [] => match fin with None => ret (fields, None) | Some e => throw e end
  | y :: rest =>
      let row := y_row y in
      if contains_th row then
        struct_loop parse x rest fin (dyn || is_list_header row) fields
      else
        match extract_fields x row with
        | None =>
            let row_txt := lower (to_text row) in
            if startswith ELLIPSIS row_txt then
              struct_loop parse x rest fin dyn
                (fields ++ [struct_field (RInt (-1) (-1)) ELLIPSIS None])
            else if startswith (utf8 "note") row_txt then ret (fields, None)
            else
              match row_err_handler (ec_handler (x_cls x)) y with
              | (PStop, ex) => ret (fields, ex)
              | (PRaise, _) => throw EXPath
              | (PContinue, _) => struct_loop parse x rest fin dyn fields
              end
        | Some (range_txt, content_txt, label_txt, content) =>
            if is_special_case range_txt || is_special_case label_txt
               || is_special_case content_txt
            then
              if is_special_case range_txt then struct_loop parse x rest fin dyn fields
              else
                r <- parse_range x range_txt range_txt ;;
                struct_loop parse x rest fin dyn
                  (match handle_special_case content_txt r with
                   | Some f => fields ++ [f]
                   | None => fields
                   end)
            else
              r <- (if dyn then parse_dynamic_range x range_txt
                    else parse_range x range_txt range_txt) ;;
              let key := range_row_key r in
              label <- parse_label x label_txt key ;;
              let brief := content_extract_brief content_txt BRIEF_MAXLEN in
              let sub := mkMeta None (x_fig x ++ [95] ++ key) (Some (x_fig x)) in
              extract_data_sub_table parse sub content ;;
              struct_loop parse x rest fin dyn (fields ++ [struct_field r label brief])
        end
  end.

(** structtable.py:125-217 StructTableExtractor.__call__, with the extra figure of
    quirks/nvm.py:59-62 and quirks/mi.py:50-53 *)
Definition struct_call (parse : meta -> elem -> M unit) (x : xctx) (k : skind) (tbl : elem)
  : M unit :=
  let '(rows, fin) := row_iter tbl in
  res <- struct_loop parse x rows fin false [] ;;
  let '(fields, ex) := res in
  let fields := match k with KBits => List.rev fields | KBytes => fields end in
  validate_struct x fields ;;
  emit (EvEnt (mkEntity (x_meta x) (BStruct k fields))) ;;
  match ex with
  | Some (m, t) => parse m t
  | None => ret tt
  end.

(** ** Value tables *)

(** valuetable.py:232-248, _extract_label_dedicated_col *)
Definition extract_label_dedicated (x : xctx) (row : elem) (row_key : str) : M str :=
  match label_elem x row with
  | None => throw EXPath
  | Some p1 =>
      let txt := lower (to_text p1) in
      if seqb txt (utf8 "reserved") then ret RESERVED
      else
        let '(h, t) := split1 58 txt in
        (match t with
         | None => issue x L1003 (Some row_key) []
         | Some _ => ret tt
         end) ;;
        ret (upper (replace_char 32 [95] h))
  end.

(** valuetable.py:271-274: rearrange, normalise, validate *)
Definition finish_value_label (x : xctx) (label row_key : str) : M str :=
  let l := normalize_label (rearrange_num_label label) in
  validate_label l (x_fig x) row_key ;; ret l.

(** valuetable.py:250-274, _extract_label *)
Definition extract_value_label (x : xctx) (row : elem) (row_key : str) (data : elem) : M str :=
  if negb (Nat.eqb (x_content x) (x_label x)) then
    label <- extract_label_dedicated x row row_key ;;
    if seqb (upper label) RESERVED then ret RESERVED
    else finish_value_label x label row_key
  else
    match extract_content data with
    | None => issue x L1000 (Some row_key) [] ;; throw ELabelExtraction
    | Some text =>
        if seqb (upper text) RESERVED then ret RESERVED
        else
          label <- (match grp_nonempty G_label (re_match VALUE_LABEL_REGEX text) with
                    | Some l => ret l
                    | None => issue x L1000 (Some row_key) [] ;; ret text
                    end) ;;
          finish_value_label x label row_key
    end.

(** valuetable.py:202-221: the duplicate loop *)
Fixpoint values_loop (x : xctx) (labels values : list str) (fs : list vfield) : M unit :=
  match fs with
  | [] => ret tt
  | f :: r =>
      if smem (vf_label f) [RESERVED; ELLIPSIS] then values_loop x labels values r
      else
        (if smem (vf_label f) labels
         then issue x L1002 (Some (vf_val f)) [(utf8 "label", JStr (vf_label f))]
         else ret tt) ;;
        (if smem (vf_val f) values then issue x V1002 (Some (vf_val f)) [] else ret tt) ;;
        values_loop x (vf_label f :: labels) (vf_val f :: values) r
  end.

(** valuetable.py:195-221, ValueTableExtractor.validate_fields *)
Definition validate_values (x : xctx) (fs : list vfield) : M unit :=
  match fs with
  | [] | [_] => ret tt
  | _ => values_loop x [] [] fs
  end.

(** Manual label overrides: ((figure id, value), label). *)
Definition overrides := list ((str * str) * str).
Definition override_of (o : overrides) (fig v : str) : option str :=
  match find (fun p => seqb (fst (fst p)) fig && seqb (snd (fst p)) v) o with
  | Some p => Some (snd p)
  | None => None
  end.

(** valuetable.py:71-124, the row loop *)
Fixpoint value_loop (parse : meta -> elem -> M unit) (ov : overrides) (x : xctx)
    (rows : list yrow) (fin : option exn) (fields : list vfield) : M (list vfield) :=
  match rows with
  | [] => match fin with None => ret fields | Some e => throw e end
  | y :: rest =>
      let row := y_row y in
      if contains_th row then value_loop parse ov x rest fin fields
      else
        match key_elem x row, content_elem x row with
        | Some row_val, Some row_data =>
            let val := lower (to_text row_val) in
            if seqb val ELLIPSIS then
              value_loop parse ov x rest fin (fields ++ [mkVField ELLIPSIS ELLIPSIS None])
            else
              label <- (match override_of ov (x_fig x) val with
                        | None => extract_value_label x row val row_data
                        | Some l => issue x L1007 (Some val) [] ;; ret l
                        end) ;;
              let brief := content_extract_brief (to_text row_data) BRIEF_MAXLEN in
              let sub := mkMeta None (x_fig x ++ [95] ++ val) (Some (x_fig x)) in
              extract_data_sub_table parse sub row_data ;;
              value_loop parse ov x rest fin (fields ++ [mkVField val label brief])
        | _, _ =>
            let row_txt := lower (to_text row) in
            if startswith ELLIPSIS row_txt then
              value_loop parse ov x rest fin (fields ++ [mkVField ELLIPSIS ELLIPSIS None])
            else if startswith (utf8 "notes:") row_txt then ret fields
            else value_loop parse ov x rest fin fields   (* handler's Raise is ignored *)
        end
  end.

(** valuetable.py:68-128, ValueTableExtractor.__call__ *)
Definition value_call (parse : meta -> elem -> M unit) (ov : overrides) (x : xctx)
    (tbl : elem) : M unit :=
  let '(rows, fin) := row_iter tbl in
  fields <- value_loop parse ov x rows fin [] ;;
  validate_values x fields ;;
  emit (EvEnt (mkEntity (x_meta x) (BValues fields))).
