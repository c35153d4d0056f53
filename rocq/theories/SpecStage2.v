(** Independent vocabulary: what the JSON document says about a figure, in the terms of the
    schema (resources/stage2.schema.json). *)
From Coq Require Import NArith ZArith List Bool String.
From Verif Require Import PyStr Json Lint.
Import ListNotations.
Local Open Scope string_scope.
Local Open Scope list_scope.

(** An object with exactly these members, in any order. *)
Definition object (j : json) (ms : list (string * json)) : Prop :=
  exists l, j = JObj l /\ NoDup (map fst l) /\ forall k v, In (k, v) l <-> exists n, k = utf8 n /\ In (n, v) ms.
(** A member that may be missing. *)
Definition optional (n : string) (x : option str) : list (string * json) :=
  match x with Some s => [(n, JStr s)] | None => [] end.

Inductive says_range : range -> json -> Prop :=
| sr_int lo hi j : object j [("low", JInt lo); ("high", JInt hi)] -> says_range (RInt lo hi) j
| sr_dyn lo hi j : object j [("low", JStr lo); ("high", JStr hi)] -> says_range (RDyn lo hi) j
| sr_text s : says_range (RText s) (JStr s).
Definition says_field (f : sfield) (j : json) : Prop :=
  exists r, says_range (sf_range f) r /\ object j ([("label", JStr (sf_label f)); ("range", r)] ++ optional "brief" (sf_brief f)).
Definition says_value (f : vfield) (j : json) : Prop :=
  object j ([("val", JStr (vf_val f)); ("label", JStr (vf_label f))] ++ optional "brief" (vf_brief f)).
Definition says_about (m : meta) : list (string * json) :=
  optional "title" (m_title m) ++ [("fig_id", JStr (m_fig m))] ++ optional "parent_fig_id" (m_parent m).
(** A figure: its type and its fields, in order. *)
Inductive says : entity -> json -> Prop :=
| sy_struct m k fs js j : Forall2 says_field fs js ->
    object j (says_about m ++ [("type", JStr (match k with KBits => utf8 "bits" | KBytes => utf8 "bytes" end)); ("fields", JList js)]) ->
    says (mkEntity m (BStruct k fs)) j
| sy_values m fs js j : Forall2 says_value fs js ->
    object j (says_about m ++ [("type", JStr (utf8 "values")); ("fields", JList js)]) ->
    says (mkEntity m (BValues fs)) j.
