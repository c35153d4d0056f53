(** src/spex/__main__.py: the command line program. *)
From Coq Require Import NArith ZArith List Bool String.
From Verif Require Import PyStr Xml Json Lint Extract Document Output Schema.
Import ListNotations.
Local Open Scope string_scope.
Local Open Scope list_scope.
Local Open Scope N_scope.

(** PurePath.suffix for the last component [name] of a path: what follows its last dot, with
    the dot, unless the dot is its first or last character. *)
Definition path_suffix (name : str) : str :=
  let r := rev name in
  let after := take_while (fun c => negb (c =? 46)) r in
  match drop_while (fun c => negb (c =? 46)) r, after with
  | _ :: _ :: _, _ :: _ => 46 :: rev after
  | _, _ => []
  end.

(** writer.py:73, htmlrenderer.py:31: [name[: -len(suffix)]]; with an empty suffix that is
    [name[:0]]. *)
Definition drop_suffix (name : str) : str :=
  match List.length (path_suffix name) with
  | O => []
  | n => firstn (List.length name - n) name
  end.

(** writer.py:72-74: the name of the JSON file for the HTML file [name]. *)
Definition json_name (name : str) : str := drop_suffix name ++ utf8 ".json".
(** htmlrenderer.py:31,39: the name of the HTML file for the docx file [name]. *)
Definition html_name (name : str) : str := drop_suffix name ++ utf8 ".html".

(** __main__.py:38-39, arg_lintcode: [None] stands for KeyError. *)
Definition code_of_name (s : str) : option code := find (fun c => seqb (code_name c) s) all_codes.
Fixpoint sequence {A} (l : list (option A)) : option (list A) :=
  match l with
  | [] => Some []
  | Some a :: r => match sequence r with Some l => Some (a :: l) | None => None end
  | None :: _ => None
  end.
Definition arg_lintcode (arg : str) : option (list code) :=
  sequence (map (fun c => code_of_name (upper (strip c))) (split_char 44 arg)).

(** An input file: its name and what processing finds in it: reading it as HTML, and what the
    docx stage does with it.  Simplification: no input is changed by processing earlier ones. *)
Record file := mkFile {
  f_name : str; f_html : source;
  f_total : N; f_reports : list N; f_raised : bool; f_made : source }.

(** parse.py:29: how parse_spec treats the file; the name of the HTML file it reads. *)
Definition as_input (f : file) : input :=
  if seqb (path_suffix (f_name f)) (utf8 ".docx")
  then Docx (f_total f) (f_reports f) (f_raised f) (f_made f) else Html (f_html f).
Definition html_file (f : file) : str :=
  if seqb (path_suffix (f_name f)) (utf8 ".docx") then html_name (f_name f) else f_name f.

(** The command line: --skip-figure-on-error, --lint-ignore (its text, if given),
    --validate-json; each input, [None] if there is no such file.  Left out: --output, --verbose
    and syntax errors of the command line. *)
Record cli := mkCli {
  c_skip : bool; c_ignore : option str; c_validate : bool; c_inputs : list (option file) }.

(** What a run leaves: the JSON files written, in order, and the exit status. *)
Definition outcome := (list (str * model) * N)%type.

Section Version.
Variable version : str.

(** __main__.py:131-157 and 159-188: the loop over the inputs with its exception handler *)
Fixpoint inputs_loop (args : pargs) (validate : bool) (fs : list file) : outcome :=
  match fs with
  | [] => ([], 0)
  | f :: rest =>
      let sfx := path_suffix (f_name f) in
      if seqb sfx (utf8 ".json") then ([], 1)
      else if negb (smem sfx [utf8 ".html"; utf8 ".docx"]) then ([], 1)
      else
        let r := parse_spec version args false None (as_input f) in
        let out := match r_file r with Some d => [(json_name (html_file f), d)] | None => [] end in
        match r_end r, r_file r with
        | Finished, Some d =>
            if validate && negb (valid stage2_schema (model_json d)) then (out, 1)
            else let (outs, s) := inputs_loop args validate rest in (out ++ outs, s)
        | _, _ => (out, 1)
        end
  end.

(** __main__.py:49-192, main.  A missing input (19-25) or an unknown lint code raises while
    the arguments are parsed: a traceback and status 1.  No input at all (92-98, nargs="+"):
    usage and status 2 (42-46). *)
Definition main (c : cli) : outcome :=
  match sequence (c_inputs c), match c_ignore c with Some t => arg_lintcode t | None => Some [] end with
  | Some [], Some _ => ([], 2)
  | Some fs, Some ignore => inputs_loop (mkArgs (c_skip c) ignore) (c_validate c) fs
  | _, _ => ([], 1)
  end.

End Version.

(** The file [name] in the output directory after these writes. *)
Definition final_file (outs : list (str * model)) (name : str) : option model :=
  fold_left (fun acc p => if seqb (fst p) name then Some (snd p) else acc) outs None.
