(** What the console shows and what the log file holds, said without the program. *)
From Coq Require Import NArith ZArith List Bool String Permutation.
From Verif Require Import PyStr Json SpecJson SpecCli Log.
Import ListNotations.
Local Open Scope string_scope.
Local Open Scope list_scope.
Local Open Scope N_scope.

(** An object with these members, in some order. *)
Definition members (j : json) (l : list (str * json)) : Prop := exists o, j = JObj o /\ Permutation o l.

Definition tells_frame (f : frame) (j : json) : Prop :=
  exists n, members j [(utf8 "name", JStr (fr_name f)); (utf8 "file", JStr (fr_file f)); (utf8 "lineno", n);
                       (utf8 "line", JStr (fr_line f))]
    /\ match fr_lineno f with Some z => n = JInt z | None => n = JNull end.
(** An exception: its type, its message, its stack trace and what caused it, if anything did. *)
Inductive tells_exc : exc -> json -> Prop :=
| te_root t m fs js j :
    Forall2 tells_frame fs js ->
    members j [(utf8 "type", JStr t); (utf8 "msg", JStr m); (utf8 "frames", JList js)] ->
    tells_exc (Exc t m fs None) j
| te_caused t m fs js c jc j :
    Forall2 tells_frame fs js -> tells_exc c jc ->
    members j [(utf8 "type", JStr t); (utf8 "msg", JStr m); (utf8 "frames", JList js); (utf8 "cause", jc)] ->
    tells_exc (Exc t m fs (Some c)) j.
(** An entry of the log file: the members present for every record, those that were bound to
    the record ("extra", if there are any) and the exception, if one was being handled. *)
Definition tells (r : record) (j : json) : Prop :=
  exists x e,
    members j ([(utf8 "level", JStr (lr_level r)); (utf8 "msg", JStr (lr_msg r)); (utf8 "file", JStr (lr_file r));
                (utf8 "func", JStr (lr_func r)); (utf8 "line", JInt (lr_line r))] ++ x ++ e)
    /\ (lr_extra r = [] /\ x = [] \/ lr_extra r <> [] /\ x = [(utf8 "extra", JObj (lr_extra r))])
    /\ (lr_exc r = None /\ e = [] \/ exists c j, lr_exc r = Some c /\ tells_exc c j /\ e = [(utf8 "exception", j)]).

(** A text of lines, each the JSON text of an entry, for the records in order.  A line has
    printable ASCII characters only. *)
Definition line_of (r : record) (l : str) : Prop :=
  Forall (fun c => 32 <= c <= 126) l /\ exists j, json_text l j /\ tells r j.
Inductive log_of : list record -> str -> Prop :=
| lo_nil : log_of [] []
| lo_cons r rs l t : line_of r l -> log_of rs t -> log_of (r :: rs) (l ++ 10 :: t).

(** The levels of messages to the user, and the others that are logged. *)
Definition user_level (l : str) : Prop :=
  In l (map utf8 ["U_INFO"; "U_SUCCESS"; "U_WARNING"; "U_ERROR"; "U_LINT"; "U_CRITICAL"]).
Definition program_level (l : str) : Prop :=
  In l (map utf8 ["DEBUG"; "INFO"; "SUCCESS"; "WARNING"; "ERROR"; "CRITICAL"]).

(** The value of SPEX_DEBUG asks for debugging: true, yes or 1 in any letter case, with any
    blanks around it. *)
Definition asks_debug (v : str) : Prop :=
  exists l w r t, v = l ++ w ++ r /\ Forall (fun x => isspace x = true) l /\ Forall (fun x => isspace x = true) r
    /\ any_case w t /\ In t [utf8 "TRUE"; utf8 "YES"; utf8 "1"].

(** The elements of a list with a property, in order. *)
Inductive those {A} (P : A -> Prop) : list A -> list A -> Prop :=
| th_nil : those P [] []
| th_in a l k : P a -> those P l k -> those P (a :: l) (a :: k)
| th_out a l k : ~ P a -> those P l k -> those P (a :: l) k.

(** Every string in a record is proper Unicode: no surrogates. *)
Definition proper_str (s : str) : Prop := Forall (fun c => c < 1114112 /\ ~ (55296 <= c <= 57343)) s.
Fixpoint proper_json (j : json) : Prop :=
  match j with
  | JStr s => proper_str s
  | JList l => (fix all (l : list json) := match l with [] => True | a :: r => proper_json a /\ all r end) l
  | JObj l =>
      (fix all (l : list (str * json)) :=
         match l with [] => True | p :: r => (proper_str (fst p) /\ proper_json (snd p)) /\ all r end) l
  | _ => True
  end.
Definition proper_frame (f : frame) : Prop := proper_str (fr_name f) /\ proper_str (fr_file f) /\ proper_str (fr_line f).
Inductive proper_exc : exc -> Prop :=
| pe_root t m fs : proper_str t -> proper_str m -> Forall proper_frame fs -> proper_exc (Exc t m fs None)
| pe_caused t m fs c : proper_str t -> proper_str m -> Forall proper_frame fs -> proper_exc c ->
    proper_exc (Exc t m fs (Some c)).
Definition proper_record (r : record) : Prop :=
  proper_str (lr_level r) /\ proper_str (lr_msg r) /\ proper_str (lr_file r) /\ proper_str (lr_func r)
  /\ proper_json (JObj (lr_extra r)) /\ match lr_exc r with Some e => proper_exc e | None => True end.
