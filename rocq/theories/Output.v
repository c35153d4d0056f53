(** src/spex/writer.py and src/spex/parse.py: from an input file to the JSON document and the
    progress reports. *)
From Coq Require Import NArith ZArith List Bool String.
From Verif Require Import PyStr Xml Json Lint RowIter Helpers Extract Document.
Import ListNotations.
Local Open Scope list_scope.

(** ** JSON form of entities *)

(** defs.py:74-79 Range/MaybeRange as JSON *)
Definition range_json (r : range) : json :=
  match r with
  | RInt lo hi => JObj [(utf8 "low", JInt lo); (utf8 "high", JInt hi)]
  | RDyn lo hi => JObj [(utf8 "low", JStr lo); (utf8 "high", JStr hi)]
  | RText s => JStr s
  end.
Definition brief_json (b : option str) : list (str * json) :=
  match b with Some b => [(utf8 "brief", JStr b)] | None => [] end.
(** structtable.py:325-338 *)
Definition sfield_json (f : sfield) : json :=
  JObj ([(utf8 "label", JStr (sf_label f)); (utf8 "range", range_json (sf_range f))]
        ++ brief_json (sf_brief f)).
(** valuetable.py:107-116 *)
Definition vfield_json (f : vfield) : json :=
  JObj ([(utf8 "val", JStr (vf_val f)); (utf8 "label", JStr (vf_label f))]
        ++ brief_json (vf_brief f)).
(** document.py:210-213, structtable.py:193-196, quirks/nvm.py:45-48.  Simplification: the
    keys are always in this order. *)
Definition meta_json (m : meta) : list (str * json) :=
  match m_title m with Some t => [(utf8 "title", JStr t)] | None => [] end
  ++ [(utf8 "fig_id", JStr (m_fig m))]
  ++ match m_parent m with Some p => [(utf8 "parent_fig_id", JStr p)] | None => [] end.
(** structtable.py:467-485, the type property *)
Definition kind_name (k : skind) : str :=
  match k with KBits => utf8 "bits" | KBytes => utf8 "bytes" end.
(** structtable.py:213-217, valuetable.py:128 *)
Definition entity_json (e : entity) : json :=
  match en_body e with
  | BStruct k fs =>
      JObj (meta_json (en_meta e)
            ++ [(utf8 "type", JStr (kind_name k)); (utf8 "fields", JList (map sfield_json fs))])
  | BValues fs =>
      JObj (meta_json (en_meta e)
            ++ [(utf8 "fields", JList (map vfield_json fs)); (utf8 "type", JStr (utf8 "values"))])
  end.

(** ** The writer *)

(** writer.py:14-16, S2Model: what a writer holds; its JSON form. *)
Record model := mkModel { mo_meta : list (str * json); mo_entities : list json }.
Definition empty_model : model := mkModel [] [].
Definition model_json (d : model) : json :=
  JObj [(utf8 "meta", JObj (mo_meta d)); (utf8 "entities", JList (mo_entities d))].

(** Assignment to a key of a dict: replaced in place, or added at the end. *)
Fixpoint dict_set (k : str) (v : json) (l : list (str * json)) : list (str * json) :=
  match l with
  | [] => [(k, v)]
  | (k', v') :: r => if seqb k k' then (k, v) :: r else (k', v') :: dict_set k v r
  end.
(** writer.py:82-83, FileWriter.write_meta *)
Definition write_meta (k : str) (v : json) (d : model) : model :=
  mkModel (dict_set k v (mo_meta d)) (mo_entities d).
(** writer.py:85-86, FileWriter.write_entity *)
Definition write_entity (v : json) (d : model) : model :=
  mkModel (mo_meta d) (mo_entities d ++ [v]).

(** ** parse_spec *)

(** How parse_spec ends. *)
Inductive perr :=
| PDoc (e : exn)      (* an exception of the modelled code *)
| PRead               (* the input cannot be read or is not well-formed XML *)
| PConvert            (* the docx stage raised *)
| PClosed.            (* the consumer closed the generator: GeneratorExit *)
Inductive pend := Finished | Failed (e : perr).

(** An input: what reading the HTML file gives; for a docx file, the progress reports and the
    total the docx stage announces, whether it raised, and the HTML file it left. *)
Inductive source := Unreadable | Tree (root : elem).
Inductive input :=
| Html (s : source)
| Docx (total : N) (reports : list N) (raised : bool) (s : source).

(** jsonspec/parse.py:36-57 open_doc and html_to_spec_doc, xml.py:117-126 attr_first_req: all
    data-spec attributes of the meta children of the head children of the root; the first one. *)
Definition meta_attrs (a : str) (root : elem) : list str :=
  flat_map (fun h => flat_map (fun m => match attr a m with Some v => [v] | None => [] end)
                       (children (utf8 "meta") h))
    (children (utf8 "head") root).
Definition open_doc (s : source) : perr + (elem * str * str) :=
  match s with
  | Unreadable => inl PRead
  | Tree root =>
      match meta_attrs (utf8 "data-spec") root with
      | [] => inl (PDoc ERuntime)
      | key :: _ =>
          match meta_attrs (utf8 "data-revision") root with
          | [] => inl (PDoc ERuntime)
          | rev :: _ => inr (root, lower key, lower rev)
          end
      end
  end.

(** jsonspec/parserargs.py:10-50: the arguments that matter here. *)
Record pargs := mkArgs { a_skip : bool; a_ignore : list code }.

(** A progress report (parse.py:37,54): phase, index, announced total. *)
Inductive phase := PHtml | PJson.
Notation report := (phase * N * N)%type.

(** The consumer of a progress-reporting run takes [Some k] reports and then closes the
    generator ([None]: it drives it to the end). *)
Definition demand := option N.
(** After one report: closed now, or the demand left. *)
Definition take_one (d : demand) : option demand :=
  match d with
  | None => Some None
  | Some k => if N.leb k 1 then None else Some (Some (N.pred k))
  end.

(** parse.py:51-58, the entity loops.  [evs] is what the document parser does, in order;
    the result has the reports, the model and [None] if the consumer closed the run. *)
Fixpoint write_events (progress : bool) (total : N) (i : N) (evs : list event) (w : demand)
    (d : model) : list report * model * option demand :=
  match evs with
  | [] => ([], d, Some w)
  | EvLint _ :: r => write_events progress total i r w d
  | EvEnt e :: r =>
      if progress then
        match take_one w with
        | None => ([(PJson, i, total)], d, None)
        | Some w' =>
            let '(rs, d', o) := write_events progress total (N.succ i) r w' (write_entity (entity_json e) d) in
            ((PJson, i, total) :: rs, d', o)
        end
      else write_events progress total i r w (write_entity (entity_json e) d)
  end.

(** parse.py:27,60-64: the entries that are not ignored *)
Definition reported_lint (ignore : list code) (evs : list event) : list json :=
  map lint_json (filter (fun l => negb (smem (code_name (l_code l)) (map code_name ignore))) (lints_of evs)).

Section Version.
(** [__version__] *)
Variable version : str.

(** parse.py:44-80: the "with get_writer" block with a FileWriter.  The model is what
    writer.py:95-108 (FileWriter.__exit__) dumps when the block ends, however it ends.
    Simplification: opening and writing the output file succeed; log messages are left out. *)
Definition json_stage (args : pargs) (progress : bool) (w : demand) (s : source)
  : list report * model * pend :=
  match open_doc s with
  | inl e => ([], empty_model, Failed e)
  | inr (root, key, rev) =>
      let d := write_meta (utf8 "spex version") (JStr version)
                (write_meta (utf8 "format version") (JInt 1)
                  (write_meta (utf8 "revision") (JStr rev)
                    (write_meta (utf8 "specification") (JStr key) empty_model))) in
      let '(r, evs) := parse_doc (get_parser (a_skip args) key rev) root in
      let '(reports, d', o) := write_events progress (num_figures root) 0 evs w d in
      match o with
      | None => (reports, d', Failed PClosed)
      | Some _ =>
          match r with
          | Ok _ => (reports, write_meta (utf8 "lint") (JList (reported_lint (a_ignore args) evs)) d', Finished)
          | Exn e => (reports, d', Failed (PDoc e))
          | OutOfFuel => (reports, d', Failed (PDoc ERuntime))   (* does not occur: C37 *)
          end
      end
  end.

(** parse.py:33-40: the reports of the docx stage *)
Fixpoint html_reports (total : N) (is : list N) (w : demand) : list report * option demand :=
  match is with
  | [] => ([], Some w)
  | i :: r =>
      match take_one w with
      | None => ([(PHtml, i, total)], None)
      | Some w' => let '(rs, o) := html_reports total r w' in ((PHtml, i, total) :: rs, o)
      end
  end.

(** A run: the reports, the JSON file left ([None]: not touched), how it ended. *)
Record run := mkRun { r_reports : list report; r_file : option model; r_end : pend }.

(** parse.py:24-80, parse_spec with an output directory.  A consumer that closes the
    generator before taking anything runs nothing. *)
Definition parse_spec (args : pargs) (progress : bool) (w : demand) (inp : input) : run :=
  match w with
  | Some 0%N => mkRun [] None (Failed PClosed)
  | _ =>
      match inp with
      | Html s =>
          let '(rs, d, e) := json_stage args progress w s in mkRun rs (Some d) e
      | Docx total is raised s =>
          let '(rs, o) := if progress then html_reports total is w else ([], Some w) in
          match o with
          | None => mkRun rs None (Failed PClosed)
          | Some w' =>
              if raised then mkRun rs None (Failed PConvert)
              else let '(rs', d, e) := json_stage args progress w' s in mkRun (rs ++ rs') (Some d) e
          end
      end
  end.

End Version.
