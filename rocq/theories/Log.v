(** Logging, src/spex/log/_log_config.py: what is shown on the console and what is written to
    the file spex.log for a sequence of log records. *)
From Coq Require Import NArith ZArith List Bool String.
From Verif Require Import PyStr Json JsonText.
Import ListNotations.
Local Open Scope string_scope.
Local Open Scope list_scope.
Local Open Scope N_scope.

(** A frame of a stack trace (traceback.extract_tb), _log_config.py:56-61. *)
Record frame := mkFrame { fr_name : str; fr_file : str; fr_lineno : option Z; fr_line : str }.
(** An exception with its stack trace and the exception that caused it.  Simplification: chains
    of causes are finite; an exception with an attribute [traceback], or none, is left out
    (exc_get_traceback, _log_config.py:39-45). *)
Inductive exc := Exc (type msg : str) (frames : list frame) (cause : option exc).
(** A record of loguru, as far as _log_config.py:140-152 uses it. *)
Record record := mkRecord {
  lr_level : str; lr_msg : str; lr_file : str; lr_func : str; lr_line : Z;
  lr_extra : list (str * json); lr_exc : option exc }.

(** _log_config.py:55-64, the frames of jsonify_exc *)
Definition frame_json (f : frame) : json :=
  JObj [(utf8 "name", JStr (fr_name f)); (utf8 "file", JStr (fr_file f));
        (utf8 "lineno", match fr_lineno f with Some z => JInt z | None => JNull end);
        (utf8 "line", JStr (fr_line f))].
(** _log_config.py:48-71, jsonify_exc.  The lines printed to the standard output for a cause
    (66-68) are left out. *)
Fixpoint jsonify_exc (e : exc) : json :=
  match e with
  | Exc type msg frames cause =>
      JObj ([(utf8 "type", JStr type); (utf8 "msg", JStr msg); (utf8 "frames", JList (map frame_json frames))]
            ++ match cause with Some c => [(utf8 "cause", jsonify_exc c)] | None => [] end)
  end.

(** _log_config.py:139-154, LogFileSerializer.__call__: the entry and the line printed for it. *)
Definition log_json (r : record) : json :=
  JObj ([(utf8 "level", JStr (lr_level r)); (utf8 "msg", JStr (lr_msg r)); (utf8 "file", JStr (lr_file r));
         (utf8 "func", JStr (lr_func r)); (utf8 "line", JInt (lr_line r))]
        ++ match lr_extra r with [] => [] | x => [(utf8 "extra", JObj x)] end
        ++ match lr_exc r with Some e => [(utf8 "exception", jsonify_exc e)] | None => [] end).
Definition log_line (r : record) : str := dumps (log_json r) ++ [10].

(** The levels of loguru and, _log_config.py:115-120, those added. *)
Definition levels : list (str * N) :=
  [(utf8 "TRACE", 5); (utf8 "DEBUG", 10); (utf8 "INFO", 20); (utf8 "SUCCESS", 25); (utf8 "WARNING", 30);
   (utf8 "ERROR", 40); (utf8 "CRITICAL", 50);
   (utf8 "U_INFO", 70); (utf8 "U_SUCCESS", 75); (utf8 "U_WARNING", 80); (utf8 "U_ERROR", 90);
   (utf8 "U_LINT", 95); (utf8 "U_CRITICAL", 100)].
Definition severity (l : str) : option N :=
  match find (fun p => seqb (fst p) l) levels with Some p => Some (snd p) | None => None end.
(** A handler added with the level [m] gets a record of the level [l].  (loguru refuses to log
    under a level that was not added.) *)
Definition handled (m l : str) : bool :=
  match severity m, severity l with Some a, Some b => a <=? b | _, _ => false end.

(** _log_config.py:37, DEBUG; [None]: the variable SPEX_DEBUG is not set *)
Definition debug_on (env : option str) : bool :=
  let v := match env with Some v => v | None => utf8 "0" end in
  existsb (seqb (strip (lower v))) [utf8 "true"; utf8 "yes"; utf8 "1"].

(** _log_config.py:78-81, fmt_no_stacktrace.  Simplification: without the colours. *)
Definition bullet : str := [8226; 32].
Section Console.
(** The stack trace loguru formats for an exception, which it adds to the format of a handler
    that is a string but not to one that is a function. *)
Variable trace : exc -> str.
(** _log_config.py:124-131: the handler on the standard error *)
Definition console_line (env : option str) (r : record) : str :=
  if debug_on env then
    if handled (utf8 "DEBUG") (lr_level r) then
      lr_level r ++ [32] ++ lr_msg r ++ [10] ++ match lr_exc r with Some e => trace e | None => [] end
    else []
  else if handled (utf8 "U_INFO") (lr_level r) then bullet ++ lr_msg r ++ [10] else [].
Definition console (env : option str) (rs : list record) : str := flat_map (console_line env) rs.
End Console.

(** _log_config.py:134-166: the handler that writes spex.log, which the program has removed
    before (74-75) *)
Definition log_file (rs : list record) : str :=
  flat_map (fun r => if handled (utf8 "DEBUG") (lr_level r) then log_line r else []) rs.
