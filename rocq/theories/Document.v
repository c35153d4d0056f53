(** src/spex/jsonspec/document.py and src/spex/jsonspec/quirks/*: figures of a document. *)
From Coq Require Import NArith ZArith List Bool String.
From Verif Require Import PyStr Regex Regexes Xml Json Lint RowIter Helpers Extract.
Import ListNotations.
Local Open Scope N_scope.
Local Open Scope m_scope.

(** A document parser class with its arguments: --skip-figure-on-error, label overrides,
    per-figure extractor overrides. *)
Record parser := mkParser {
  p_skip : bool;
  p_label_overrides : overrides;
  p_fig_overrides : list (str * ecls) }.

(** document.py:99-105, tbl_normalize_mappings *)
Definition tbl_normalize_mappings : list (str * str) :=
  [(utf8 "code", h_value); (utf8 "bit", h_bits); (utf8 "byte", h_bytes)].

(** document.py:245-247: collapse line breaks and spaces *)
Definition clean_hdr (hdr : str) : str :=
  strip (collapse_spaces (replace_char 13 [] (replace_char 10 [32] hdr))).

(** document.py:248-260: replace known variants, recording T1006 *)
Definition normalize_hdr (fig hdr : str) : M str :=
  let h := clean_hdr hdr in
  match find (fun p => seqb (fst p) h) tbl_normalize_mappings with
  | Some (_, repl) =>
      add_issue T1006 fig None [(utf8 "got", JStr h); (utf8 "expected", JStr repl)] ;; ret repl
  | None => ret h
  end.

Fixpoint mapM {A B} (f : A -> M B) (l : list A) : M (list B) :=
  match l with
  | [] => ret []
  | x :: r => y <- f x ;; ys <- mapM f r ;; ret (y :: ys)
  end.

(** document.py:262-265: query "./tr[1]/*" *)
Definition hdr_cells (tbl : elem) : list elem :=
  match nth_child t_tr 0 tbl with
  | Some tr => map fst (e_kids tr)
  | None => []
  end.

(** document.py:216-265, extract_tbl_headers *)
Definition extract_tbl_headers (fig : str) (tbl : elem) : M (list str) :=
  mapM (fun th => normalize_hdr fig (strip (lower (to_text th)))) (hdr_cells tbl).

(** document.py:107-123, extractors *)
Definition extractors : list ecls :=
  [BytesTableExtractor; ValueTableExtractor; BitsTableExtractor].

(** document.py:282-286: first applicable extractor *)
Fixpoint select_extractor (l : list ecls) (hdrs : list str) : option (ecls * mapping) :=
  match l with
  | [] => None
  | c :: r =>
      match can_apply c hdrs with
      | Some m => Some (c, m)
      | None => select_extractor r hdrs
      end
  end.

(** document.py:301-315: build the extractor and run it; [None] columns would be KeyError. *)
Definition run_extractor (parse : meta -> elem -> M unit) (P : parser) (m : meta)
    (tbl : elem) (hdrs : list str) (c : ecls) (mp : mapping) : option (M unit) :=
  match col_index hdrs (mp_key mp) 0 None, col_index hdrs (mp_label mp) 0 None,
        col_index hdrs (mp_content mp) 0 None with
  | Some k, Some l, Some d =>
      let x := mkX c m k l d in
      Some (match ec_kind c with
            | EKStruct sk => struct_call parse x sk tbl
            | EKValues => value_call parse (p_label_overrides P) x tbl
            end)
  | _, _, _ => None
  end.

(** document.py:321-343: the exception handler of _on_parse_fig.  When it does not
    re-raise, the loop resumes a finished generator and ends. *)
Definition on_fig_error (P : parser) (m : meta) (e : exn) : M unit :=
  unwinding <- get_flag ;;
  (if unwinding then ret tt
   else
     set_flag true ;;
     add_issue T1000 (m_fig m) None
       (match m_title m with Some t => [(utf8 "title", JStr t)] | None => [] end)) ;;
  match m_parent m with
  | Some _ => throw e
  | None => if p_skip P then ret tt else throw e
  end.

Definition lookup_fig (l : list (str * ecls)) (fig : str) : option ecls :=
  match find (fun p => seqb (fst p) fig) l with Some p => Some (snd p) | None => None end.

(** document.py:267-343, _on_parse_fig.  Fuel bounds the nesting; running out of it is
    the separate outcome [OutOfFuel]. *)
Fixpoint on_parse_fig (fuel : nat) (P : parser) (m : meta) (tbl : elem) : M unit :=
  match fuel with
  | O => nofuel
  | S n =>
      let parse := on_parse_fig n P in
      set_flag false ;;
      hdrs <- extract_tbl_headers (m_fig m) tbl ;;
      match lookup_fig (p_fig_overrides P) (m_fig m) with
      | None =>
          match select_extractor extractors hdrs with
          | None =>
              add_issue T1007 (m_fig m) None [(utf8 "columns", JList (map JStr hdrs))]
          | Some (c, mp) =>
              match run_extractor parse P m tbl hdrs c mp with
              | Some run => catch run (on_fig_error P m)
              | None => throw EKeyError
              end
          end
      | Some c =>
          match can_apply c hdrs with
          | None => throw ERuntime
          | Some mp =>
              match run_extractor parse P m tbl hdrs c mp with
              | Some run => catch run (on_fig_error P m)
              | None => throw EKeyError
              end
          end
      end
  end.

(** Enough fuel for a table (Prop_Doc.v, C37). *)
Definition parse_figure (P : parser) (m : meta) (tbl : elem) : M unit :=
  on_parse_fig (S (esize tbl)) P m tbl.

(** document.py:176-177, _figures: query "./body/table" from the root *)
Definition figures (doc : elem) : list elem :=
  flat_map (children t_table) (children t_body doc).

(** document.py:179-186, num_figures *)
Definition num_figures (doc : elem) : N := N.of_nat (List.length (figures doc)).

(** document.py:192-194: a table wrapped in an extra table *)
Definition unwrap_table (tbl : elem) : elem :=
  match nth_child t_tr 0 tbl with
  | Some tr =>
      match nth_child t_td 0 tr with
      | Some td =>
          match e_kids td with
          | (inner, _) :: _ => if seqb (e_tag inner) t_table then inner else tbl
          | [] => tbl
          end
      | None => tbl
      end
  | None => tbl
  end.

(** document.py:199-201: remove the first tr child *)
Fixpoint remove_first_tr (ks : list kid) : list kid :=
  match ks with
  | [] => []
  | k :: r => if seqb (e_tag (fst k)) t_tr then r else k :: remove_first_tr r
  end.
Definition drop_title_row (tbl : elem) : elem :=
  Elem (e_tag tbl) (e_attrs tbl) (e_text tbl) (remove_first_tr (e_kids tbl)).

(** document.py:156-174, the pattern part of _on_extract_figure_id *)
Definition figure_id (title : str) : option str :=
  grp G_id (re_match FIG_ID_REGEX title).

(** document.py:165-170: the stand-in name "FIG_ID_MISSING[n]" *)
Definition missing_name (n : N) : str := utf8 "FIG_ID_MISSING[" ++ str_of_N n ++ [93].

(** What iter_figures (document.py:188-214) does with one table. *)
Inductive fig_step :=
| FNoRow                          (* elem_first_req raises *)
| FNoTitle                        (* no "Figure" in the title row: skipped *)
| FNoId (title : str)             (* T1008, skipped *)
| FFigure (m : meta) (tbl : elem).

Definition classify (tbl0 : elem) : fig_step :=
  let tbl := unwrap_table tbl0 in
  match nth_child t_tr 0 tbl with
  | None => FNoRow
  | Some tr =>
      match extract_figure_title tr with
      | None => FNoTitle
      | Some title =>
          match figure_id title with
          | None => FNoId title
          | Some id => FFigure (mkMeta (Some title) id None) (drop_title_row tbl)
          end
      end
  end.

(** document.py:188-214 iter_figures and document.py:345-350 parse, over the remaining
    top-level tables; [missing] is the FIG_ID_MISSING counter. *)
Fixpoint parse_tables (P : parser) (missing : N) (tbls : list elem) : M unit :=
  match tbls with
  | [] => ret tt
  | t :: r =>
      match classify t with
      | FNoRow => throw EXPath
      | FNoTitle => parse_tables P missing r
      | FNoId title =>
          add_issue T1008 (missing_name missing) None [(utf8 "title", JStr title)] ;;
          parse_tables P (missing + 1) r
      | FFigure m tbl => parse_figure P m tbl ;; parse_tables P missing r
      end
  end.

(** document.py:345-350, DocumentParser.parse on a fresh parser *)
Definition parse_doc (P : parser) (doc : elem) : res unit * list event :=
  let '(r, _, t) := parse_tables P 0 (figures doc) false in (r, t).

(** ** Quirks (src/spex/jsonspec/quirks) *)

(** quirks/nvm.py:16-62, NvmFig23 *)
Definition NvmFig23 : ecls :=
  mkCls (EKStruct KBits) [h_bits] [h_attribute; h_description] [h_description]
        (HSplit (utf8 "figure 24") (utf8 "24")).
(** quirks/mi.py:16-53, MiFig64 *)
Definition MiFig64 : ecls :=
  mkCls (EKStruct KBits) [h_bits] [h_attribute; h_description] [h_description]
        (HSplit (utf8 "figure 65") (utf8 "65")).
(** quirks/kv.py:14-27, KvFig41 *)
Definition KvFig41 : ecls :=
  mkCls (EKStruct KBytes) [h_bytes] [h_attribute; h_description] [h_description]
        (HSkipSuffix (utf8 "(refer to Figure 39).")).

(** A quirks parser class: label overrides and extractor overrides. *)
Definition quirks := (overrides * list (str * ecls))%type.

Definition ov (fig v l : string) : (str * str) * str := ((utf8 fig, utf8 v), utf8 l).

(** quirks/nvm.py:85-105 *)
Definition NvmCmdSet1c : quirks :=
  ([ov "42_4" "00b" "none"; ov "42_4" "01b" "idle"; ov "42_4" "10b" "normal";
    ov "42_4" "11b" "low"; ov "49_0_4" "00b" "none"; ov "42_0_4" "01b" "idle";
    ov "49_0_4" "10b" "normal"; ov "49_0_4" "11b" "low"; ov "64_0_4" "00b" "none";
    ov "64_0_4" "01b" "idle"; ov "64_0_4" "10b" "normal"; ov "64_0_4" "11b" "low"],
   [(utf8 "23", NvmFig23)]).
(** quirks/zoned.py:8-15 *)
Definition NvmCsZoned11c : quirks :=
  ([ov "37" "0" "zt"; ov "37" "1" "zs"; ov "37" "2" "za"], []).
(** quirks/mi.py:56-63 *)
Definition NvmMi1_2c : quirks := ([ov "19" "2" "misc"], [(utf8 "64", MiFig64)]).
(** quirks/kv.py:30-35 *)
Definition NvmKv1_0c : quirks := ([], [(utf8 "41", KvFig41)]).

(** quirks/__init__.py:18-24 *)
Definition QUIRKS_MAP : list ((str * str) * quirks) :=
  [((utf8 "nvm express® nvm command set specification", utf8 "1.0c"), NvmCmdSet1c);
   ((utf8 "nvm express® zoned namespace command set specification", utf8 "1.1c"), NvmCsZoned11c);
   ((utf8 "nvm express® management interface specification", utf8 "1.2c"), NvmMi1_2c);
   ((utf8 "nvm express® key value command set specification", utf8 "1.0c"), NvmKv1_0c);
   ((utf8 "nvm express® key value command set specification", utf8 "1.0"), NvmKv1_0c)].

(** src/spex/jsonspec/parse.py:22-32, SpecDocument.get_parser *)
Definition get_parser (skip : bool) (key rev : str) : parser :=
  match find (fun p => seqb (fst (fst p)) key && seqb (snd (fst p)) rev) QUIRKS_MAP with
  | Some (_, (lo, fo)) => mkParser skip lo fo
  | None => mkParser skip [] []
  end.
