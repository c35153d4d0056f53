(** How the command line program reads its arguments: src/spex/__main__.py:19-46 and 75-128, with
    the part of Python's argparse (3.11.10) that is used: one positional argument with nargs="+",
    options without an argument and options with one. *)
From Coq Require Import NArith ZArith List Bool String.
From Verif Require Import PyStr Lint Cli Disk Messages RunLog.
Import ListNotations.
Local Open Scope string_scope.
Local Open Scope list_scope.
Local Open Scope N_scope.

(** ** The options, __main__.py:75-113 *)

(** The boolean of the options made by BooleanOptionalAction (105-110) is what they set. *)
Inductive opt := OHelp | OSkip | OOutput | OValidate (b : bool) | OVerbose (b : bool) | OLint.
Definition takes_arg (o : opt) : bool := match o with OOutput | OLint => true | _ => false end.
(** argparse's _option_string_actions, in the order in which they are added *)
Definition option_strings : list (str * opt) :=
  [(utf8 "-h", OHelp); (utf8 "--help", OHelp);
   (utf8 "-s", OSkip); (utf8 "--skip-figure-on-error", OSkip);
   (utf8 "-o", OOutput); (utf8 "--output", OOutput);
   (utf8 "--validate-json", OValidate true); (utf8 "--no-validate-json", OValidate false);
   (utf8 "-v", OVerbose true); (utf8 "--verbose", OVerbose true); (utf8 "--no-verbose", OVerbose false);
   (utf8 "--lint-ignore", OLint)].
Definition find_option (s : str) : option opt :=
  match find (fun p => seqb (fst p) s) option_strings with Some p => Some (snd p) | None => None end.

(** ** The words of the command line *)

(** A word: an argument; "--"; an option, with whether it was given by its letter, whether
    there is "=" and what follows in the word; something like an option. *)
Inductive word := WArg (s : str) | WDashes | WOpt (o : opt) (short eqs : bool) (rest : option str) | WUnknown.

(** str.partition("="): [None] if there is none *)
Fixpoint partition_eq (s : str) : option (str * str) :=
  match s with
  | [] => None
  | c :: r =>
      if c =? 61 then Some ([], r)
      else match partition_eq r with Some (a, b) => Some (c :: a, b) | None => None end
  end.
(** argparse's _negative_number_matcher, ^-\d+$|^-\d*\.\d+$; [$] also matches before a final
    newline *)
Definition digits (s : str) : bool := match s with [] => false | _ => forallb isdigit s end.
Definition drop_newline (s : str) : str := match rev s with 10 :: r => rev r | _ => s end.
Definition negative_number (s : str) : bool :=
  match drop_newline s with
  | c :: r =>
      (c =? 45)
      && (digits r || match drop_while isdigit r with d :: f => (d =? 46) && digits f | [] => false end)
  | [] => false
  end.
(** argparse's _get_option_tuples.  No option here begins with a single dash and has more than one
    letter. *)
Definition option_tuples (s : str) : list word :=
  match s with
  | 45 :: 45 :: _ =>
      let '(prefix, eqs, rest) :=
        match partition_eq s with Some (a, b) => (a, true, Some b) | None => (s, false, None) end in
      map (fun p => WOpt (snd p) false eqs rest)
        (filter (fun p => startswith prefix (fst p)) option_strings)
  | _ =>
      map (fun p => WOpt (snd p) true false (Some (skipn 2 s)))
        (filter (fun p => seqb (fst p) (firstn 2 s)) option_strings)
  end.
(** Whether an option string has a single dash *)
Definition is_short (s : str) : bool := match s with _ :: c :: _ => negb (c =? 45) | _ => false end.
(** argparse's _parse_optional; [None]: the option is ambiguous, which ends the program *)
Definition parse_optional (s : str) : option word :=
  match s with
  | [] => Some (WArg s)
  | c :: t =>
      if negb (c =? 45) then Some (WArg s)
      else
        match find_option s with
        | Some o => Some (WOpt o (is_short s) false None)
        | None =>
            match t with
            | [] => Some (WArg s)
            | _ =>
                match match partition_eq s with
                      | Some (a, b) => match find_option a with Some o => Some (WOpt o (is_short a) true (Some b)) | None => None end
                      | None => None
                      end with
                | Some w => Some w
                | None =>
                    match option_tuples s with
                    | _ :: _ :: _ => None
                    | [w] => Some w
                    | [] => if negative_number s || has_char 32 s then Some (WArg s) else Some WUnknown
                    end
                end
            end
        end
  end.
(** argparse's _parse_known_args: all the words, before anything is done with them *)
Fixpoint words (argv : list str) : option (list word) :=
  match argv with
  | [] => Some []
  | s :: r =>
      if seqb s (utf8 "--") then Some (WDashes :: map WArg r)
      else
        match parse_optional s, words r with
        | Some w, Some ws => Some (w :: ws)
        | _, _ => None
        end
  end.

(** ** What is done with them *)

(** What an action is called with. *)
Inductive taken :=
  | THelp | TSkip | TOutput (s : str) | TValidate (b : bool) | TVerbose (b : bool) | TLint (s : str)
  | TInputs (l : list str).
Definition take (o : opt) (arg : str) : taken :=
  match o with
  | OHelp => THelp | OSkip => TSkip | OOutput => TOutput arg | OValidate b => TValidate b | OVerbose b => TVerbose b
  | OLint => TLint arg
  end.
(** The options of one word: an error; the actions and whether a part was not recognized; the
    actions before an option that takes its argument from the next word. *)
Inductive reading := RError | RTaken (l : list taken) (unknown : bool) | RNext (l : list taken) (o : opt).
Definition before (t : taken) (r : reading) : reading :=
  match r with RError => RError | RTaken l u => RTaken (t :: l) u | RNext l o => RNext (t :: l) o end.
(** consume_optional without an explicit argument *)
Definition alone (o : opt) : reading := if takes_arg o then RNext [] o else RTaken [take o []] false.
(** consume_optional with an explicit argument [e], for an option given by its letter *)
Fixpoint bundle (o : opt) (eqs : bool) (e : str) : reading :=
  if takes_arg o then RTaken [take o e] false
  else
    match e with
    | [] => RError
    | c :: e' =>
        if eqs || (c =? 45) then RError
        else
          match find_option [45; c] with
          | None => RTaken [take o []] true
          | Some o' =>
              before (take o [])
                match e' with
                | [] => alone o'
                | d :: e'' => if d =? 61 then bundle o' true e'' else bundle o' false e'
                end
          end
    end.
Definition read_word (o : opt) (short eqs : bool) (rest : option str) : reading :=
  match rest with
  | None => alone o
  | Some e =>
      if short then bundle o eqs e
      else if takes_arg o then RTaken [take o e] false else RError
  end.

(** The actions that are taken in order, and whether there is then no error.  [had]: the
    positional argument has been found; [extra]: a word was not recognized; [run]: arguments that
    have been passed and belong to the positional argument.  (_parse_known_args, 2053-2116;
    parse_args; _get_values drops the first "--".) *)
Definition flush (run : list str) : list taken := match run with [] => [] | _ => [TInputs run] end.
Definition after_flush (had : bool) (run : list str) : bool := match run with [] => had | _ => true end.
Definition prepend (l : list taken) (r : list taken * bool) : list taken * bool := (l ++ fst r, snd r).
Fixpoint consume (ws : list word) (had extra : bool) (run : list str) : list taken * bool :=
  match ws with
  | [] => (flush run, after_flush had run && negb extra)
  | WArg s :: r => if had then consume r had true run else consume r had extra (run ++ [s])
  | WDashes :: r => if had then consume r had true run else consume r had extra run
  | WUnknown :: r => prepend (flush run) (consume r (after_flush had run) true [])
  | WOpt o short eqs rest :: r =>
      match read_word o short eqs rest with
      | RError => (flush run, false)
      | RTaken l u => prepend (flush run ++ l) (consume r (after_flush had run) (extra || u) [])
      | RNext l o' =>
          match r with
          | WArg v :: r' => prepend (flush run ++ l ++ [take o' v]) (consume r' (after_flush had run) extra [])
          | _ => (flush run, false)
          end
      end
  end.
Definition scan (argv : list str) : list taken * bool :=
  match words argv with
  | None => ([], false)
  | Some ws => consume ws false false []
  end.

(** ** The values, and the start of the program *)

(** What is at a path before the program is run. *)
Inductive thing := Nothing | AFile | ADir | Other.
Section Start.
Variable at_path : str -> thing.
(** Whether Path.mkdir succeeds (32).  A directory that it makes is listed; its parents, which
    are made too, are not. *)
Variable can_make : str -> bool.
(** The file and the directory a path names, and the working directory *)
Variable file_at : str -> path.
Variable dir_at : str -> str.
Variable cwd : str.

(** 19-25 *)
Definition arg_input (s : str) : option path := match at_path s with AFile => Some (file_at s) | _ => None end.
(** 28-35; [made]: the directories made so far *)
Definition arg_output (made : list str) (s : str) : option (list str) :=
  if smem s made then Some made
  else
    match at_path s with
    | ADir => Some made
    | Nothing => if can_make s then Some (made ++ [s]) else None
    | _ => None
    end.

(** argparse's namespace *)
Record namespace := mkNs {
  n_skip : bool; n_output : option str; n_validate : bool; n_verbose : bool; n_ignore : option str;
  n_inputs : list path }.
Definition ns0 : namespace := mkNs false None false false None [].
(** The program ends while its arguments are read, or starts. *)
Inductive started := Exits (status : N) (made : list str) | Starts (k : command) (verbose : bool) (made : list str).
(** take_action for all of them.  An exception that is raised by a conversion (21-34, 39: a
    RuntimeError, a KeyError or an OSError) is not caught by argparse: status 1. *)
Fixpoint take_all (l : list taken) (ok : bool) (n : namespace) (made : list str) : started :=
  match l with
  | [] =>
      if ok then
        Starts (mkCommand (n_skip n) (n_ignore n) (n_validate n)
                  (match n_output n with Some s => dir_at s | None => cwd end) cwd (n_inputs n))
          (n_verbose n) made
      else Exits 2 made
  | THelp :: _ => Exits 0 made
  | TSkip :: r => take_all r ok (mkNs true (n_output n) (n_validate n) (n_verbose n) (n_ignore n) (n_inputs n)) made
  | TOutput s :: r =>
      match arg_output made s with
      | Some made' =>
          take_all r ok (mkNs (n_skip n) (Some s) (n_validate n) (n_verbose n) (n_ignore n) (n_inputs n)) made'
      | None => Exits 1 made
      end
  | TValidate b :: r => take_all r ok (mkNs (n_skip n) (n_output n) b (n_verbose n) (n_ignore n) (n_inputs n)) made
  | TVerbose b :: r => take_all r ok (mkNs (n_skip n) (n_output n) (n_validate n) b (n_ignore n) (n_inputs n)) made
  | TLint s :: r =>
      match arg_lintcode s with
      | Some _ => take_all r ok (mkNs (n_skip n) (n_output n) (n_validate n) (n_verbose n) (Some s) (n_inputs n)) made
      | None => Exits 1 made
      end
  | TInputs l :: r =>
      match sequence (map arg_input l) with
      | Some ps => take_all r ok (mkNs (n_skip n) (n_output n) (n_validate n) (n_verbose n) (n_ignore n) ps) made
      | None => Exits 1 made
      end
  end.
(** __main__.py:115-128 *)
Definition start (argv : list str) : started := let '(l, ok) := scan argv in take_all l ok ns0 [].

End Start.
