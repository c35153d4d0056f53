(** The files of a run of the command line program: src/spex/__main__.py with parse.py,
    writer.py, htmlspec/htmlrenderer.py and htmlspec/docx/document.py. *)
From Coq Require Import NArith ZArith List Bool String.
From Verif Require Import PyStr Xml Json JsonText Lint Extract Document Output Schema Cli Docx Render Css.
Import ListNotations.
Local Open Scope string_scope.
Local Open Scope list_scope.
Local Open Scope N_scope.

(** ** Files *)

(** The parts of a docx file that are read (document.py:25, numbering.py:104, header.py:17,
    styles.py:64).  Simplification: each part there is can be parsed as XML (lxml). *)
Record package := mkPackage {
  pk_document : option welem; pk_numbering : option welem; pk_header : option welem; pk_styles : option welem }.
(** What is in a file: text, a docx package, or anything else.  Simplification: text is encoded
    and decoded without an error. *)
Inductive content := Text (s : str) | Package (p : package) | Other.
(** A directory and a name in it.  Simplification: different paths are different files. *)
Definition path := (str * str)%type.
Definition same (p q : path) : bool := seqb (fst p) (fst q) && seqb (snd p) (snd q).
(** [None]: there is no such file.  Simplification: writing succeeds. *)
Definition disk := path -> option content.
(** Files written, in order, with their texts. *)
Definition effects := list (path * str).
Definition put (e : path * str) (d : disk) : disk := fun q => if same q (fst e) then Some (Text (snd e)) else d q.
Definition disk_after (w : effects) (d : disk) : disk := fold_left (fun d e => put e d) w d.

(** ** Opening a docx file *)

(** docxutils.py:12-18, docx_extract_contents: a missing part is a KeyError of ZipFile.open *)
Definition extract (part : option welem) : dres welem := match part with Some e => DOk e | None => DErr DKey end.
(** document.py:23-34, Document.__init__: the document and the text of its header *)
Definition open_docx (p : package) : dres (docx * str) :=
  dlet body <- extract (pk_document p);
  dlet num <- match (dlet e <- extract (pk_numbering p); parse_numbering e) with
              | DErr DKey => DOk None
              | DErr e => DErr e
              | DFuel => DFuel
              | DOk n => DOk (Some n)
              end;
  dlet h <- extract (pk_header p);
  dlet st <- extract (pk_styles p);
  dlet _ <- styles_ok st;
  DOk (mkDocx body num st, header_text h).

Section Disk.
(** [__version__]; etree.parse on a text (jsonspec/parse.py:53). *)
Variable version : str.
Variable read : str -> source.

(** jsonspec/parse.py:36-37, read_text, and 53.  What is not text is not readable. *)
Definition source_of (c : option content) : source := match c with Some (Text s) => read s | _ => Unreadable end.

(** parse.py:29-42 with htmlrenderer.py:29-54, 119-160 and 259-265: the docx stage for a file of
    which [c] is known, and whether it raised.  The style sheet and the HTML file are written
    when the renderer is destroyed, in this order (262-264).  Unless the document cannot be opened (then __del__
    fails as well: there is nothing to write), this is also the case if a table raises, but
    the exception refers to the renderer, so it may as well not happen before the program ends:
    both are possible here.  What was rendered until then is the header and the tables before
    the one that raised. *)
Inductive convert (out stem : str) : option content -> effects -> bool -> Prop :=
| cv_no_docx c : match c with Some (Package _) => False | _ => True end -> convert out stem c [] true
| cv_not_open p : match open_docx p with DOk _ => False | _ => True end -> convert out stem (Some (Package p)) [] true
| cv_lost p d h : open_docx p = DOk (d, h) -> match parse_docx d with DOk _ => False | _ => True end ->
    convert out stem (Some (Package p)) [] true
| cv_raised p d h a t b us s ts c html css :
    open_docx p = DOk (d, h) ->
    w_all "w:tbl" (dx_body d) = a ++ t :: b -> parse_tables d a [] = DOk (us, s) ->
    match parse_table (parse_any d (any_fuel (w_kids t))) t s with DOk _ => False | _ => True end ->
    render_all render_unit us no_caches = (ts, c) ->
    writes (html_head version stem (header_title h) (header_revision h) ++ [TOpen (utf8 "body") []; TNl] ++ ts) html ->
    lines_written (css_prelude (dx_num d)) css ->
    convert out stem (Some (Package p)) [((out, stem ++ utf8 ".css"), css); ((out, stem ++ utf8 ".html"), html)] true
| cv_done p d h us ts c html css :
    open_docx p = DOk (d, h) -> parse_docx d = DOk us ->
    html_doc version stem (header_title h) (header_revision h) us = (ts, c) ->
    writes ts html -> lines_written (css_lines (dx_num d) c) css ->
    convert out stem (Some (Package p)) [((out, stem ++ utf8 ".css"), css); ((out, stem ++ utf8 ".html"), html)] false.

(** ** One input *)

(** parse.py:24-80 with writer.py:71-108: the JSON file is created empty before the HTML file is
    read (76), and written at the end (103). *)
Inductive process (args : pargs) (out : str) (d : disk) : path -> effects -> option model -> pend -> Prop :=
| pr_html dir name r m :
    path_suffix name <> utf8 ".docx" ->
    r = parse_spec version args false None (Html (source_of (disk_after [((out, json_name name), [])] d (dir, name)))) ->
    r_file r = Some m ->
    process args out d (dir, name) [((out, json_name name), []); ((out, json_name name), file_text m)] (Some m) (r_end r)
| pr_raised dir name w :
    path_suffix name = utf8 ".docx" -> convert out (drop_suffix name) (d (dir, name)) w true ->
    process args out d (dir, name) w None (Failed PConvert)
| pr_docx dir name w r m :
    path_suffix name = utf8 ".docx" -> convert out (drop_suffix name) (d (dir, name)) w false ->
    r = parse_spec version args false None
          (Docx 0 [] false (source_of (disk_after (w ++ [((out, json_name (html_name name)), [])]) d (out, html_name name)))) ->
    r_file r = Some m ->
    process args out d (dir, name)
      (w ++ [((out, json_name (html_name name)), []); ((out, json_name (html_name name)), file_text m)]) (Some m) (r_end r).

(** ** The program *)

(** __main__.py:152-157: the input was processed without an exception, and the result is valid *)
Definition well (validate : bool) (m : option model) (e : pend) : bool :=
  match e, m with
  | Finished, Some m => negb (validate && negb (valid stage2_schema (model_json m)))
  | _, _ => false
  end.
(** __main__.py:131-188: the inputs one after the other, and the exit status *)
Inductive loop (args : pargs) (validate : bool) (out : str) : disk -> list path -> effects -> N -> Prop :=
| lp_end d : loop args validate out d [] [] 0
| lp_name d p ins : ~ In (path_suffix (snd p)) [utf8 ".html"; utf8 ".docx"] -> loop args validate out d (p :: ins) [] 1
| lp_fails d p ins w m e :
    In (path_suffix (snd p)) [utf8 ".html"; utf8 ".docx"] ->
    process args out d p w m e -> well validate m e = false -> loop args validate out d (p :: ins) w 1
| lp_next d p ins w m e w' st :
    In (path_suffix (snd p)) [utf8 ".html"; utf8 ".docx"] ->
    process args out d p w m e -> well validate m e = true ->
    loop args validate out (disk_after w d) ins w' st -> loop args validate out d (p :: ins) (w ++ w') st.

(** The command line: the options, the output directory (119-120: the working directory if not
    given), the working directory and the inputs.  Left out: --verbose, syntax errors of the
    command line, and creating the output directory (28-35). *)
Record command := mkCommand {
  k_skip : bool; k_ignore : option str; k_validate : bool; k_out : str; k_cwd : str; k_inputs : list path }.
Definition found (d : disk) (p : path) : bool := match d p with Some _ => true | None => false end.
(** __main__.py:49-188: what a run writes, and its status; as in Cli.v, [main] *)
Definition runs (k : command) (d : disk) (w : effects) (st : N) : Prop :=
  match forallb (found d) (k_inputs k), match k_ignore k with Some t => arg_lintcode t | None => Some [] end with
  | true, Some ignore =>
      match k_inputs k with
      | [] => w = [] /\ st = 2
      | ins => loop (mkArgs (k_skip k) ignore) (k_validate k) (k_out k) d ins w st
      end
  | _, _ => w = [] /\ st = 1
  end.

(** log/_log_config.py:74-75: the log is replaced in each run; its content is left out. *)
Definition log_path (k : command) : path := (k_cwd k, utf8 "spex.log").
(** The disk after a run that writes [w]. *)
Definition leaves (k : command) (w : effects) (d d' : disk) : Prop :=
  forall q, q <> log_path k -> d' q = disk_after w d q.
(** The disk if the run is interrupted: each file is as some of the writes left it, or the next
    one to it was cut short.  The files need not be interrupted at the same time: the operating
    system may write them in any order. *)
Definition interrupted (k : command) (w : effects) (d d' : disk) : Prop :=
  forall q, q <> log_path k -> exists w1 w2, w = w1 ++ w2
    /\ (d' q = disk_after w1 d q \/ exists s r w3, w2 = (q, s ++ r) :: w3 /\ d' q = Some (Text s)).

End Disk.
