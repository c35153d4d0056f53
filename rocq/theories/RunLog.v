(** What a run of the command line program logs and shows: src/spex/__main__.py and parse.py
    with their log messages.  Disk.v leaves the messages out; the relations here are those of
    Disk.v with the messages (Prop_RunLog.v, [C89_same]). *)
From Coq Require Import NArith ZArith List Bool String.
From Verif Require Import PyStr Xml Json JsonText Lint Extract Document Output Schema Cli Disk Messages.
Import ListNotations.
Local Open Scope string_scope.
Local Open Scope list_scope.
Local Open Scope N_scope.

(** Why the program gives up: an exception while an input is processed, or of validate_json
    (__main__.py:157). *)
Inductive failure := FParse (e : perr) | FInvalid.
(** What is logged or written to the standard error: a message of the program; the record of the
    exception at the top level (__main__.py:160; logger.exception logs at the level ERROR); a
    text. *)
Inductive entry := Msg (g : message) | Bubble (f : failure) | Stderr (s : str).
(** The level and the text of the record of an exception at the top level, __main__.py:160 *)
Definition bubble_level : str := utf8 "ERROR".
Definition bubble_text : str := utf8 "unhandled exception bubbled up to top-level".

Section RunLog.
Variable version : str.
Variable read : str -> source.
(** str.isprintable; the qualified name of an extractor class (see Messages.v); str() of a
    path; what traceback.print_exc prints (__main__.py:187). *)
Variable printable : N -> bool.
Variable qualname : ecls -> str.
Variable show : path -> str.
Variable printed : failure -> str.

(** __main__.py:132 *)
Definition parsing_msg (p : path) : message :=
  mkMessage (utf8 "U_INFO") (utf8 "parsing '" ++ show p ++ utf8 "'...") [] None.
(** __main__.py:133-149: the texts for an input with another suffix *)
Definition bad_input (p : path) : str :=
  if seqb (path_suffix (snd p)) (utf8 ".json")
  then utf8 "cannot operate on NVMe model (JSON), requires the HTML model or docx spec as input" ++ [10]
  else utf8 "invalid input file (" ++ show p ++ utf8 "), requires a HTML model or the docx specification file" ++ [10].
(** __main__.py:162-185 *)
Definition exited_msg : message :=
  mkMessage (utf8 "U_ERROR")
    (join (10 :: [32; 32])
       [utf8 "Program exited in error!";
        [];
        utf8 "This typically happens if spex failed to parse one or more figures.";
        utf8 "Check the log messages above to see which figures are causing errors.";
        [];
        utf8 "If you believe Spex *should* be able to parse this figure - and that";
        utf8 "it is not simply a matter of changing to the figure to follow conventions";
        utf8 "then perhaps a bug report for Spex is in order.";
        utf8 "When filing the bug report, please attach the `spex.log` file which resides";
        utf8 "in this directory.";
        utf8 "Note that the `spex.log` file is rewritten on each execution";
        []]) [] None.
(** parse.py:66-79, with a path *)
Definition count_msg (n : N) (q : path) : message :=
  mkMessage (utf8 "U_ERROR")
    (utf8 "Encountered " ++ str_of_N n ++ utf8 " linting errors during processing, see `" ++ show q ++ utf8 "`") [] None.

(** The messages among what is done, and the rest. *)
Definition msgs_of (l : list act) : list message := flat_map (fun a => match a with Said g => [g] | Did _ => [] end) l.
Definition evs_of (l : list act) : list event := flat_map (fun a => match a with Did e => [e] | Said _ => [] end) l.
(** parse.py:44-79: the messages while the HTML file [s] is processed; compare [json_stage].
    [q] is the path of the JSON file. *)
Definition json_messages (args : pargs) (q : path) (s : source) : list message :=
  match open_doc s with
  | inl _ => []
  | inr (root, key, rev) =>
      let '(r, acts) := log_doc printable key rev qualname (get_parser (a_skip args) key rev) root in
      msgs_of acts
      ++ match r with
         | Ok _ =>
             match reported_lint (a_ignore args) (evs_of acts) with
             | [] => []
             | errs => [count_msg (N.of_nat (List.length errs)) q]
             end
         | _ => []
         end
  end.

(** parse.py:24-80; compare [process].  The docx stage logs nothing. *)
Inductive process_log (args : pargs) (out : str) (d : disk) : path -> effects -> option model -> pend -> list message -> Prop :=
| pl_html dir name src r m :
    path_suffix name <> utf8 ".docx" ->
    src = source_of read (disk_after [((out, json_name name), [])] d (dir, name)) ->
    r = parse_spec version args false None (Html src) ->
    r_file r = Some m ->
    process_log args out d (dir, name) [((out, json_name name), []); ((out, json_name name), file_text m)] (Some m) (r_end r)
      (json_messages args (out, json_name name) src)
| pl_raised dir name w :
    path_suffix name = utf8 ".docx" -> convert version out (drop_suffix name) (d (dir, name)) w true ->
    process_log args out d (dir, name) w None (Failed PConvert) []
| pl_docx dir name w src r m :
    path_suffix name = utf8 ".docx" -> convert version out (drop_suffix name) (d (dir, name)) w false ->
    src = source_of read (disk_after (w ++ [((out, json_name (html_name name)), [])]) d (out, html_name name)) ->
    r = parse_spec version args false None (Docx 0 [] false src) ->
    r_file r = Some m ->
    process_log args out d (dir, name)
      (w ++ [((out, json_name (html_name name)), []); ((out, json_name (html_name name)), file_text m)]) (Some m) (r_end r)
      (json_messages args (out, json_name (html_name name)) src).

(** The exception that ends an input that does not go well, __main__.py:151-159 *)
Definition failure_of (e : pend) : failure := match e with Failed x => FParse x | Finished => FInvalid end.
(** __main__.py:131-188; compare [loop] *)
Inductive loop_log (args : pargs) (validate verbose : bool) (out : str) : disk -> list path -> effects -> N -> list entry -> Prop :=
| ll_end d : loop_log args validate verbose out d [] [] 0 []
| ll_name d p ins : ~ In (path_suffix (snd p)) [utf8 ".html"; utf8 ".docx"] ->
    loop_log args validate verbose out d (p :: ins) [] 1 [Msg (parsing_msg p); Stderr (bad_input p)]
| ll_fails d p ins w m e gs :
    In (path_suffix (snd p)) [utf8 ".html"; utf8 ".docx"] ->
    process_log args out d p w m e gs -> well validate m e = false ->
    loop_log args validate verbose out d (p :: ins) w 1
      (Msg (parsing_msg p) :: map Msg gs ++ [Bubble (failure_of e); Msg exited_msg]
       ++ if verbose then [Stderr (printed (failure_of e))] else [])
| ll_next d p ins w m e gs w' st es :
    In (path_suffix (snd p)) [utf8 ".html"; utf8 ".docx"] ->
    process_log args out d p w m e gs -> well validate m e = true ->
    loop_log args validate verbose out (disk_after w d) ins w' st es ->
    loop_log args validate verbose out d (p :: ins) (w ++ w') st (Msg (parsing_msg p) :: map Msg gs ++ es).

(** __main__.py:49-188; compare [runs].  If the options are not valid nothing is logged (what
    Python and argparse then write to the standard error is left out). *)
Definition runs_log (k : command) (verbose : bool) (d : disk) (w : effects) (st : N) (es : list entry) : Prop :=
  match forallb (found d) (k_inputs k), match k_ignore k with Some t => arg_lintcode t | None => Some [] end with
  | true, Some ignore =>
      match k_inputs k with
      | [] => w = [] /\ st = 2 /\ es = []
      | ins => loop_log (mkArgs (k_skip k) ignore) (k_validate k) verbose (k_out k) d ins w st es
      end
  | _, _ => w = [] /\ st = 1 /\ es = []
  end.

End RunLog.
