(** What is logged while a document is processed: src/spex/jsonspec/document.py and
    src/spex/jsonspec/extractors with their log messages.  Document.v and Extract.v leave the
    messages out; here the functions that log, and those that call them, are given with their
    messages, everything else they do being the same (MsgProofs.v, [log_doc_same]). *)
From Coq Require Import NArith ZArith List Bool String.
From Verif Require Import PyStr Regex Regexes Xml Json JsonText Lint RowIter Helpers Extract Document Output.
Import ListNotations.
Local Open Scope string_scope.
Local Open Scope list_scope.
Local Open Scope N_scope.

(** ** Messages *)

(** A message: its level, its text, what is bound to it and the exception being handled, if it
    was logged by logger.exception.  Left out: the place in the source code. *)
Record message := mkMessage { g_level : str; g_text : str; g_extra : list (str * json); g_exn : option exn }.
(** What is done, in order. *)
Inductive act := Did (e : event) | Said (g : message).

Section Messages.
(** str.isprintable for a character that is not ASCII. *)
Variable printable : N -> bool.

(** Python's repr of a string: in apostrophes, or in quotation marks if there are apostrophes
    and no quotation marks in it.  (CPython, unicode_repr.) *)
Definition x_digits (c : N) : str := [hex_digit (c / 16); hex_digit (c mod 16)].
Definition repr_char (q c : N) : str :=
  if (c =? q) || (c =? 92) then [92; c]
  else if c =? 9 then [92; 116]
  else if c =? 10 then [92; 110]
  else if c =? 13 then [92; 114]
  else if (c <? 32) || (c =? 127) then 92 :: 120 :: x_digits c
  else if c <? 127 then [c]
  else if printable c then [c]
  else if c <? 256 then 92 :: 120 :: x_digits c
  else if c <? 65536 then 92 :: 117 :: hex4 c
  else 92 :: 85 :: hex4 (c / 65536) ++ hex4 (c mod 65536).
Definition repr_quote (s : str) : N := if has_char 39 s && negb (has_char 34 s) then 34 else 39.
Definition repr_str (s : str) : str :=
  let q := repr_quote s in q :: flat_map (repr_char q) s ++ [q].
(** Python's repr of the dict that describes a figure.  Simplification: as in Output.v, the keys
    are always in this order. *)
Definition repr_meta (m : meta) : str :=
  utf8 "{" ++ match m_title m with Some t => utf8 "'title': " ++ repr_str t ++ utf8 ", " | None => [] end
  ++ utf8 "'fig_id': " ++ repr_str (m_fig m)
  ++ match m_parent m with Some p => utf8 ", 'parent_fig_id': " ++ repr_str p | None => [] end ++ utf8 "}".

(** The specification and its revision (document.py:312), the name of an extractor class
    ([__qualname__], 313). *)
Variables spec revision : str.
Variable qualname : ecls -> str.

(** document.py:310-314: what is bound to the messages while figure [m] is read *)
Definition figure_context (m : meta) (c : ecls) : list (str * json) :=
  [(utf8 "entity", JObj (meta_json m));
   (utf8 "doc", JObj [(utf8 "spec", JStr spec); (utf8 "revision", JStr revision)]);
   (utf8 "extractor_cls", JStr (qualname c))].
(** document.py:325 *)
Definition failed_msg (m : meta) (c : ecls) : message :=
  mkMessage (utf8 "U_ERROR") (utf8 "failed parsing figure " ++ repr_meta m) (figure_context m c) None.
(** document.py:326; logger.exception logs at the level ERROR *)
Definition exception_msg (m : meta) (c : ecls) (e : exn) : message :=
  mkMessage (utf8 "ERROR") (utf8 "exception when parsing figure") (figure_context m c) (Some e).
(** document.py:337 *)
Definition in_msg (m : meta) (c : ecls) : message :=
  mkMessage (utf8 "U_ERROR") (utf8 "  in " ++ repr_meta m) (figure_context m c) None.
(** document.py:161-164 *)
Definition no_id_msg (title : str) : message :=
  mkMessage (utf8 "U_ERROR") (utf8 "failed extracting title from figure header " ++ repr_str title) [] None.
(** structtable.py:162-164 *)
Definition row_msg (m : meta) (c : ecls) (row : elem) (e : exn) : message :=
  mkMessage (utf8 "ERROR") (utf8 "failed to parse row")
    (figure_context m c ++ [(utf8 "range", JStr (lower (to_text row)))]) (Some e).
(** structtable.py:401 *)
Definition label_msg (m : meta) (c : ecls) (row_key : str) (e : exn) : message :=
  mkMessage (utf8 "ERROR") (utf8 "error extracting label for row")
    (figure_context m c ++ [(utf8 "row", JStr row_key)]) (Some e).

(** ** Computations that log; compare Lint.v *)

Definition L (A : Type) := bool -> res A * bool * list act.
Definition lift {A} (m : M A) : L A := fun f => let '(r, f', t) := m f in (r, f', map Did t).
Definition say (g : message) : L unit := fun f => (Ok tt, f, [Said g]).
Definition lret {A} (a : A) : L A := fun f => (Ok a, f, []).
Definition lthrow {A} (e : exn) : L A := fun f => (Exn e, f, []).
Definition lnofuel {A} : L A := fun f => (OutOfFuel, f, []).
Definition lbind {A B} (m : L A) (k : A -> L B) : L B :=
  fun f =>
    match m f with
    | (Ok a, f1, t1) => let '(r, f2, t2) := k a f1 in (r, f2, t1 ++ t2)
    | (Exn e, f1, t1) => (Exn e, f1, t1)
    | (OutOfFuel, f1, t1) => (OutOfFuel, f1, t1)
    end.
Definition lcatch {A} (m : L A) (h : exn -> L A) : L A :=
  fun f =>
    match m f with
    | (Exn e, f1, t1) => let '(r, f2, t2) := h e f1 in (r, f2, t1 ++ t2)
    | other => other
    end.
Local Notation "x <~ a ;; b" := (lbind a (fun x => b)) (at level 100, a at next level, right associativity).
Local Notation "a ;;; b" := (lbind a (fun _ => b)) (at level 100, right associativity).
Fixpoint literM {A} (f : A -> L unit) (l : list A) : L unit :=
  match l with
  | [] => lret tt
  | x :: r => f x ;;; literM f r
  end.

(** ** The functions that log *)

(** figure.py:110-117, extract_data_sub_table *)
Definition log_sub_table (parse : meta -> elem -> L unit) (m : meta) (data : elem) : L unit :=
  literM (parse m) (children t_table data).

(** structtable.py:391-402, _parse_label *)
Definition log_parse_label (x : xctx) (label row_key : str) : L str :=
  lcatch (lift (parse_label x label row_key))
    (fun e => say (label_msg (x_meta x) (x_cls x) row_key e) ;;; lthrow e).

(** structtable.py:129-204; compare [struct_loop] *)
Fixpoint log_struct_loop (parse : meta -> elem -> L unit) (x : xctx) (rows : list yrow)
    (fin : option exn) (dyn : bool) (fields : list sfield) : L (list sfield * extra) :=
  match rows with
  | [] => match fin with None => lret (fields, None) | Some e => lthrow e end
  | y :: rest =>
      let row := y_row y in
      if contains_th row then
        log_struct_loop parse x rest fin (dyn || is_list_header row) fields
      else
        match extract_fields x row with
        | None =>
            let row_txt := lower (to_text row) in
            if startswith ELLIPSIS row_txt then
              log_struct_loop parse x rest fin dyn
                (fields ++ [struct_field (RInt (-1) (-1)) ELLIPSIS None])
            else if startswith (utf8 "note") row_txt then lret (fields, None)
            else
              match row_err_handler (ec_handler (x_cls x)) y with
              | (PStop, ex) => lret (fields, ex)
              | (PRaise, _) => say (row_msg (x_meta x) (x_cls x) row EXPath) ;;; lthrow EXPath
              | (PContinue, _) => log_struct_loop parse x rest fin dyn fields
              end
        | Some (range_txt, content_txt, label_txt, content) =>
            if is_special_case range_txt || is_special_case label_txt
               || is_special_case content_txt
            then
              if is_special_case range_txt then log_struct_loop parse x rest fin dyn fields
              else
                r <~ lift (parse_range x range_txt range_txt) ;;
                log_struct_loop parse x rest fin dyn
                  (match handle_special_case content_txt r with
                   | Some f => fields ++ [f]
                   | None => fields
                   end)
            else
              r <~ lift (if dyn then parse_dynamic_range x range_txt
                         else parse_range x range_txt range_txt) ;;
              let key := range_row_key r in
              label <~ log_parse_label x label_txt key ;;
              let brief := content_extract_brief content_txt BRIEF_MAXLEN in
              let sub := mkMeta None (x_fig x ++ [95] ++ key) (Some (x_fig x)) in
              log_sub_table parse sub content ;;;
              log_struct_loop parse x rest fin dyn (fields ++ [struct_field r label brief])
        end
  end.
(** structtable.py:125-217; compare [struct_call] *)
Definition log_struct_call (parse : meta -> elem -> L unit) (x : xctx) (k : skind) (tbl : elem) : L unit :=
  let '(rows, fin) := row_iter tbl in
  res <~ log_struct_loop parse x rows fin false [] ;;
  let '(fields, ex) := res in
  let fields := match k with KBits => List.rev fields | KBytes => fields end in
  lift (validate_struct x fields) ;;;
  lift (emit (EvEnt (mkEntity (x_meta x) (BStruct k fields)))) ;;;
  match ex with
  | Some (m, t) => parse m t
  | None => lret tt
  end.

(** valuetable.py:71-124; compare [value_loop] *)
Fixpoint log_value_loop (parse : meta -> elem -> L unit) (ov : overrides) (x : xctx)
    (rows : list yrow) (fin : option exn) (fields : list vfield) : L (list vfield) :=
  match rows with
  | [] => match fin with None => lret fields | Some e => lthrow e end
  | y :: rest =>
      let row := y_row y in
      if contains_th row then log_value_loop parse ov x rest fin fields
      else
        match key_elem x row, content_elem x row with
        | Some row_val, Some row_data =>
            let val := lower (to_text row_val) in
            if seqb val ELLIPSIS then
              log_value_loop parse ov x rest fin (fields ++ [mkVField ELLIPSIS ELLIPSIS None])
            else
              label <~ lift (match override_of ov (x_fig x) val with
                             | None => extract_value_label x row val row_data
                             | Some l => bind (issue x L1007 (Some val) []) (fun _ => ret l)
                             end) ;;
              let brief := content_extract_brief (to_text row_data) BRIEF_MAXLEN in
              let sub := mkMeta None (x_fig x ++ [95] ++ val) (Some (x_fig x)) in
              log_sub_table parse sub row_data ;;;
              log_value_loop parse ov x rest fin (fields ++ [mkVField val label brief])
        | _, _ =>
            let row_txt := lower (to_text row) in
            if startswith ELLIPSIS row_txt then
              log_value_loop parse ov x rest fin (fields ++ [mkVField ELLIPSIS ELLIPSIS None])
            else if startswith (utf8 "notes:") row_txt then lret fields
            else log_value_loop parse ov x rest fin fields
        end
  end.
(** valuetable.py:68-128; compare [value_call] *)
Definition log_value_call (parse : meta -> elem -> L unit) (ov : overrides) (x : xctx) (tbl : elem) : L unit :=
  let '(rows, fin) := row_iter tbl in
  fields <~ log_value_loop parse ov x rows fin [] ;;
  lift (validate_values x fields) ;;;
  lift (emit (EvEnt (mkEntity (x_meta x) (BValues fields)))).

(** document.py:301-315; compare [run_extractor] *)
Definition log_run_extractor (parse : meta -> elem -> L unit) (P : parser) (m : meta)
    (tbl : elem) (hdrs : list str) (c : ecls) (mp : mapping) : option (L unit) :=
  match col_index hdrs (mp_key mp) 0 None, col_index hdrs (mp_label mp) 0 None,
        col_index hdrs (mp_content mp) 0 None with
  | Some k, Some l, Some d =>
      let x := mkX c m k l d in
      Some (match ec_kind c with
            | EKStruct sk => log_struct_call parse x sk tbl
            | EKValues => log_value_call parse (p_label_overrides P) x tbl
            end)
  | _, _, _ => None
  end.

(** document.py:321-343; compare [on_fig_error].  Left out: the stack traces printed to the
    standard error (322, 324). *)
Definition log_fig_error (P : parser) (m : meta) (c : ecls) (e : exn) : L unit :=
  unwinding <~ lift get_flag ;;
  (if unwinding then say (in_msg m c)
   else
     say (failed_msg m c) ;;;
     say (exception_msg m c e) ;;;
     lift (set_flag true) ;;;
     lift (add_issue T1000 (m_fig m) None
             (match m_title m with Some t => [(utf8 "title", JStr t)] | None => [] end))) ;;;
  match m_parent m with
  | Some _ => lthrow e
  | None => if p_skip P then lret tt else lthrow e
  end.

(** document.py:267-343; compare [on_parse_fig] *)
Fixpoint log_parse_fig (fuel : nat) (P : parser) (m : meta) (tbl : elem) : L unit :=
  match fuel with
  | O => lnofuel
  | S n =>
      let parse := log_parse_fig n P in
      lift (set_flag false) ;;;
      hdrs <~ lift (extract_tbl_headers (m_fig m) tbl) ;;
      match lookup_fig (p_fig_overrides P) (m_fig m) with
      | None =>
          match select_extractor extractors hdrs with
          | None =>
              lift (add_issue T1007 (m_fig m) None [(utf8 "columns", JList (map JStr hdrs))])
          | Some (c, mp) =>
              match log_run_extractor parse P m tbl hdrs c mp with
              | Some run => lcatch run (log_fig_error P m c)
              | None => lthrow EKeyError
              end
          end
      | Some c =>
          match can_apply c hdrs with
          | None => lthrow ERuntime
          | Some mp =>
              match log_run_extractor parse P m tbl hdrs c mp with
              | Some run => lcatch run (log_fig_error P m c)
              | None => lthrow EKeyError
              end
          end
      end
  end.
Definition log_figure (P : parser) (m : meta) (tbl : elem) : L unit := log_parse_fig (S (esize tbl)) P m tbl.

(** document.py:188-214 with 156-174, and 345-350; compare [parse_tables] *)
Fixpoint log_tables (P : parser) (missing : N) (tbls : list elem) : L unit :=
  match tbls with
  | [] => lret tt
  | t :: r =>
      match classify t with
      | FNoRow => lthrow EXPath
      | FNoTitle => log_tables P missing r
      | FNoId title =>
          say (no_id_msg title) ;;;
          lift (add_issue T1008 (missing_name missing) None [(utf8 "title", JStr title)]) ;;;
          log_tables P (missing + 1) r
      | FFigure m tbl => log_figure P m tbl ;;; log_tables P missing r
      end
  end.
Definition log_doc (P : parser) (doc : elem) : res unit * list act :=
  let '(r, _, t) := log_tables P 0 (figures doc) false in (r, t).

End Messages.
