(** src/spex/jsonspec/lint.py: lint codes and entries; the effect type shared by the
    stage 2 model. *)
From Coq Require Import NArith ZArith List Bool String.
From Verif Require Import PyStr Json.
Import ListNotations.
Local Open Scope N_scope.

(** lint.py:12-40 Code and lint.py:43-68 LintErr (the two enumerations are in bijection;
    the model uses one). *)
Inductive code :=
| O1000 | T1000 | T1001 | T1002 | T1004 | T1006 | T1007 | T1008
| L1000 | L1001 | L1002 | L1003 | L1004 | L1007
| V1000 | V1001 | V1002 | V1003
| R1000 | R1001 | R1002.

Definition all_codes : list code :=
  [O1000; T1000; T1001; T1002; T1004; T1006; T1007; T1008; L1000; L1001; L1002; L1003;
   L1004; L1007; V1000; V1001; V1002; V1003; R1000; R1001; R1002].

Definition code_eqb (a b : code) : bool :=
  match a, b with
  | O1000, O1000 | T1000, T1000 | T1001, T1001 | T1002, T1002 | T1004, T1004
  | T1006, T1006 | T1007, T1007 | T1008, T1008 | L1000, L1000 | L1001, L1001
  | L1002, L1002 | L1003, L1003 | L1004, L1004 | L1007, L1007 | V1000, V1000
  | V1001, V1001 | V1002, V1002 | V1003, V1003 | R1000, R1000 | R1001, R1001
  | R1002, R1002 => true
  | _, _ => false
  end.

(** lint.py:12-40, [Code.X.name] *)
Definition code_name (c : code) : str :=
  utf8 match c with
  | O1000 => "O1000" | T1000 => "T1000" | T1001 => "T1001" | T1002 => "T1002"
  | T1004 => "T1004" | T1006 => "T1006" | T1007 => "T1007" | T1008 => "T1008"
  | L1000 => "L1000" | L1001 => "L1001" | L1002 => "L1002" | L1003 => "L1003"
  | L1004 => "L1004" | L1007 => "L1007" | V1000 => "V1000" | V1001 => "V1001"
  | V1002 => "V1002" | V1003 => "V1003" | R1000 => "R1000" | R1001 => "R1001"
  | R1002 => "R1002"
  end.

(** lint.py:12-40, [Code.X.value] *)
Definition code_msg (c : code) : str :=
  utf8 match c with
  | O1000 => "general error"
  | T1000 => "error parsing table - the table's columns implied it should be parsed but some quirk of the table caused the parser to fail"
  | T1001 => "field overlaps with range of prior field"
  | T1002 => "gap between this and the prior field"
  | T1004 => "row order wrong, bits should be in desc order, bytes in asc order"
  | T1006 => "non-standard table header"
  | T1007 => "table skipped"
  | T1008 => "failed to extract figure ID from table header"
  | L1000 => "error extracting label"
  | L1001 => "empty label"
  | L1002 => "duplicate label"
  | L1003 => "label missing, using imputed value"
  | L1004 => "label contained invalid characters"
  | L1007 => "label manually overridden"
  | V1000 => "error extracting value"
  | V1001 => "empty value"
  | V1002 => "duplicate value"
  | V1003 => "invalid value"
  | R1000 => "error extracting range"
  | R1001 => "invalid range, neither single offset value, nor a [high:low] range"
  | R1002 => "range reversed"
  end.

(** lint.py:91, [self.err.value.name[0] in ("R", "L", "V")] *)
Definition needs_row (c : code) : bool :=
  match code_name c with
  | x :: _ => (x =? 82) || (x =? 76) || (x =? 86)
  | [] => false
  end.

(** lint.py:71-77, LintEntry *)
Record lint := mkLint {
  l_code : code;
  l_fig : str;
  l_msg : str;
  l_row : option str;
  l_ctx : list (str * json) }.

(** lint.py:97-106, LintEntry.to_json *)
Definition lint_json (l : lint) : json :=
  JObj ([(utf8 "code", JStr (code_name (l_code l)));
         (utf8 "msg", JStr (l_msg l));
         (utf8 "fig", JStr (l_fig l));
         (utf8 "context", JObj (l_ctx l))]
        ++ match l_row l with Some r => [(utf8 "row", JStr r)] | None => [] end).

(** Python exceptions that the modelled code can raise. *)
Inductive exn :=
| EValueError            (* int() of a non-number, or more than 4300 digits *)
| EXPath                 (* XPathElementNotFoundException *)
| ELabelExtraction       (* LabelExtractionError *)
| ERuntime               (* RuntimeError *)
| EAssertion             (* AssertionError *)
| EKeyError.             (* KeyError *)

(** ** Entities (src/spex/jsonspec/defs.py:61-106) *)

(** defs.py:95-98 EntityMeta *)
Record meta := mkMeta { m_title : option str; m_fig : str; m_parent : option str }.

(** defs.py:74-79 MaybeRange: numeric low/high, textual low/high, or plain text. *)
Inductive range :=
| RInt (low high : Z)
| RDyn (low high : str)
| RText (s : str).

(** defs.py:82-85 StructField *)
Record sfield := mkSField { sf_label : str; sf_range : range; sf_brief : option str }.

(** defs.py:61-64 ValueField (val is always a string in the modelled extractors) *)
Record vfield := mkVField { vf_val : str; vf_label : str; vf_brief : option str }.

Inductive skind := KBits | KBytes.

Inductive body :=
| BStruct (k : skind) (fs : list sfield)
| BValues (fs : list vfield).

(** defs.py:101-106 Entity *)
Record entity := mkEntity { en_meta : meta; en_body : body }.

(** ** Effects

    What a generator of the stage 2 code does, in order: record a lint entry or yield an
    entity. *)
Inductive event := EvLint (l : lint) | EvEnt (e : entity).

Inductive res (A : Type) := Ok (a : A) | Exn (e : exn) | OutOfFuel.
Arguments Ok {A}. Arguments Exn {A}. Arguments OutOfFuel {A}.

(** A computation: reads and writes the parser's [_unwind_parse_error] flag, emits events,
    and ends normally, with an exception, or out of fuel. *)
Definition M (A : Type) := bool -> res A * bool * list event.

Definition ret {A} (a : A) : M A := fun f => (Ok a, f, []).
Definition throw {A} (e : exn) : M A := fun f => (Exn e, f, []).
Definition nofuel {A} : M A := fun f => (OutOfFuel, f, []).
Definition bind {A B} (m : M A) (k : A -> M B) : M B :=
  fun f =>
    match m f with
    | (Ok a, f1, t1) => let '(r, f2, t2) := k a f1 in (r, f2, t1 ++ t2)
    | (Exn e, f1, t1) => (Exn e, f1, t1)
    | (OutOfFuel, f1, t1) => (OutOfFuel, f1, t1)
    end.
Definition emit (e : event) : M unit := fun f => (Ok tt, f, [e]).
Definition get_flag : M bool := fun f => (Ok f, f, []).
Definition set_flag (b : bool) : M unit := fun _ => (Ok tt, b, []).

(** [try: m except Exception as e: h e] *)
Definition catch (m : M unit) (h : exn -> M unit) : M unit :=
  fun f =>
    match m f with
    | (Exn e, f1, t1) => let '(r, f2, t2) := h e f1 in (r, f2, t1 ++ t2)
    | other => other
    end.

Declare Scope m_scope.
Delimit Scope m_scope with m.
Notation "x <- a ;; b" := (bind a (fun x => b))
  (at level 100, a at next level, right associativity) : m_scope.
Notation "a ;; b" := (bind a (fun _ => b))
  (at level 100, right associativity) : m_scope.
Local Open Scope m_scope.

Fixpoint iterM {A} (f : A -> M unit) (l : list A) : M unit :=
  match l with
  | [] => ret tt
  | x :: r => f x ;; iterM f r
  end.

(** document.py:39-67 DocLinter.add_issue with lint.py:79-95 LintEntry.__post_init__
    (no caller passes a message, so the message is always the code's text). *)
Definition add_issue (c : code) (fig : str) (row : option str) (ctx : list (str * json))
  : M unit :=
  if seqb fig [] then throw EAssertion
  else if needs_row c && match row with None => true | Some _ => false end
  then throw EAssertion
  else emit (EvLint (mkLint c fig (code_msg c) row ctx)).

Definition lints_of (t : list event) : list lint :=
  flat_map (fun e => match e with EvLint l => [l] | EvEnt _ => [] end) t.
Definition ents_of (t : list event) : list entity :=
  flat_map (fun e => match e with EvEnt x => [x] | EvLint _ => [] end) t.
