(** Independent vocabulary for the command line of the program. *)
From Coq Require Import NArith List Bool String.
From Verif Require Import PyStr Disk Args SpecText.
Import ListNotations.
Local Open Scope string_scope.
Local Open Scope list_scope.
Local Open Scope N_scope.

(** ** Words *)

(** What an option says. *)
Inductive setting :=
  | Help | Skip | Validate (b : bool) | Verbose (b : bool) | Output (dir : str) | Ignore (codes : str).
(** The long options without a value, and those with one. *)
Definition flags : list (string * setting) :=
  [("--help", Help); ("--skip-figure-on-error", Skip); ("--validate-json", Validate true);
   ("--no-validate-json", Validate false); ("--verbose", Verbose true); ("--no-verbose", Verbose false)].
Definition valued : list (string * (str -> setting)) := [("--output", Output); ("--lint-ignore", Ignore)].
Definition long_names : list string := map fst flags ++ map fst valued.
(** The options that have a letter: h, s and v without a value; o with one. *)
Inductive letter : N -> setting -> Prop :=
| letter_h : letter 104 Help
| letter_s : letter 115 Skip
| letter_v : letter 118 (Verbose true).

(** [w] is the long option, or the beginning of this one only. *)
Definition starts_with (w s : str) : Prop := exists r, s = w ++ r.
Definition stands (w : str) (name : string) : Prop :=
  In name long_names /\ starts_with w (utf8 name)
  /\ forall other, In other long_names -> starts_with w (utf8 other) -> other = name.

(** The word is read as an option: it is the beginning of a long option, alone or with a value, or
    it begins with the letter of an option. *)
Definition option_word (v : str) : Prop :=
  (exists w name, starts_with (utf8 "--") w /\ In name long_names /\ starts_with w (utf8 name)
     /\ (v = w \/ exists x, v = w ++ 61 :: x))
  \/ exists c r, v = 45 :: c :: r /\ In c [104; 115; 118; 111].
(** The beginning of two long options, alone or with a value. *)
Definition ambiguous (v : str) : Prop :=
  exists w n1 n2, In n1 long_names /\ In n2 long_names /\ n1 <> n2 /\ starts_with (utf8 "--") w
    /\ starts_with w (utf8 n1) /\ starts_with w (utf8 n2) /\ (v = w /\ w <> utf8 "--" \/ exists x, v = w ++ 61 :: x).
(** A negative number, perhaps with a newline after it. *)
Definition negative (v : str) : Prop :=
  exists ds nl, (nl = [] \/ nl = [10])
    /\ (numeral ds /\ v = 45 :: ds ++ nl
        \/ exists fs, all isdigit ds /\ numeral fs /\ v = 45 :: ds ++ 46 :: fs ++ nl).
(** A word that can be an input or a value: it does not begin with a dash, or it is a dash, or it
    is not read as an option and is a negative number or has a space in it. *)
Definition operand (v : str) : Prop :=
  ~ starts_with [45] v \/ v = [45] \/ (~ option_word v /\ (negative v \/ In 32 v)).

(** ** Lines *)

(** One option as it can be written, and what it says: "--name", "--name value", "--name=value",
    "-sv", "-svo value", "-svovalue", "-svo=value". *)
Inductive option_item : list str -> list setting -> Prop :=
| oi_flag w name x : stands w name -> In (name, x) flags -> option_item [w] [x]
| oi_value w name f v : stands w name -> In (name, f) valued -> operand v -> option_item [w; v] [f v]
| oi_equals w name f v : stands w name -> In (name, f) valued -> option_item [w ++ 61 :: v] [f v]
| oi_letters cs xs : cs <> [] -> Forall2 letter cs xs -> option_item [45 :: cs] xs
| oi_dir cs xs v : Forall2 letter cs xs -> operand v -> option_item [45 :: cs ++ [111]; v] (xs ++ [Output v])
| oi_dir_here cs xs v : Forall2 letter cs xs -> v <> [] -> ~ starts_with [61] v ->
    option_item [45 :: cs ++ 111 :: v] (xs ++ [Output v])
| oi_dir_equals cs xs v : Forall2 letter cs xs -> option_item [45 :: cs ++ 111 :: 61 :: v] (xs ++ [Output v]).
Inductive options : list str -> list setting -> Prop :=
| op_nil : options [] []
| op_cons ws xs ws' xs' : option_item ws xs -> options ws' xs' -> options (ws ++ ws') (xs ++ xs').
(** A command line: options, the inputs, options.  Or options, and the inputs with "--"
    somewhere before the last of them; what follows it is not looked at. *)
Inductive line : list str -> list setting -> list str -> list setting -> Prop :=
| line_plain a pre ins b post :
    options a pre -> ins <> [] -> Forall operand ins -> options b post -> line (a ++ ins ++ b) pre ins post
| line_dashes a pre i1 i2 :
    options a pre -> i1 ++ i2 <> [] -> Forall operand i1 -> line (a ++ i1 ++ utf8 "--" :: i2) pre (i1 ++ i2) [].

(** ** Meaning *)

(** The last setting of a kind says [x]; without one it is [default]. *)
Definition last_says {A} (kind : setting -> A -> Prop) (default : A) (l : list setting) (x : A) : Prop :=
  (exists l1 s l2, l = l1 ++ s :: l2 /\ kind s x /\ forall s' y, In s' l2 -> ~ kind s' y)
  \/ ((forall s y, In s l -> ~ kind s y) /\ x = default).
Definition says_skip (s : setting) (b : bool) : Prop := s = Skip /\ b = true.
Definition says_validate (s : setting) (b : bool) : Prop := s = Validate b.
Definition says_verbose (s : setting) (b : bool) : Prop := s = Verbose b.
Definition says_output (s : setting) (o : option str) : Prop := exists d, s = Output d /\ o = Some d.
Definition says_ignore (s : setting) (o : option str) : Prop := exists t, s = Ignore t /\ o = Some t.
(** The command a line gives. *)
Definition means (file_at : str -> path) (dir_at : str -> str) (cwd : str) (l : list setting) (ins : list str) (k : command) (verbose : bool) : Prop :=
  last_says says_skip false l (k_skip k)
  /\ last_says says_validate false l (k_validate k)
  /\ last_says says_verbose false l verbose
  /\ last_says says_ignore None l (k_ignore k)
  /\ (exists o, last_says says_output None l o /\ k_out k = match o with Some d => dir_at d | None => cwd end)
  /\ k_cwd k = cwd /\ k_inputs k = map file_at ins.

(** ** What stands in the way *)

(** What is looked at, in order. *)
Inductive item := Setting (s : setting) | Inputs (l : list str).
Definition items (pre : list setting) (ins : list str) (post : list setting) : list item :=
  map Setting pre ++ Inputs ins :: map Setting post.
(** A directory for the output: there is one, or it can be made. *)
Definition usable (at_path : str -> thing) (can_make : str -> bool) (d : str) : Prop :=
  at_path d = ADir \/ (at_path d = Nothing /\ can_make d = true).
(** The item ends the program, with this status: a request for help; a directory that cannot be
    used; a lint code that does not exist; an input that is not a file. *)
Inductive ends (at_path : str -> thing) (can_make : str -> bool) (codes_ok : str -> Prop) : item -> N -> Prop :=
| ends_help : ends at_path can_make codes_ok (Setting Help) 0
| ends_output d : ~ usable at_path can_make d -> ends at_path can_make codes_ok (Setting (Output d)) 1
| ends_ignore t : ~ codes_ok t -> ends at_path can_make codes_ok (Setting (Ignore t)) 1
| ends_input l s : In s l -> at_path s <> AFile -> ends at_path can_make codes_ok (Inputs l) 1.
(** The directories that are made for these items: those that are not there, each once. *)
Definition makes (at_path : str -> thing) (l : list item) (made : list str) : Prop :=
  NoDup made /\ forall d, In d made <-> In (Setting (Output d)) l /\ at_path d = Nothing.
