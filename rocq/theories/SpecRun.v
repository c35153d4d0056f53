(** Independent vocabulary for the properties about processing a whole document:
    one-table documents, outputs in document order. *)
From Coq Require Import NArith ZArith List Bool String.
From Verif Require Import PyStr Xml Json Lint RowIter Helpers Extract Document
  SpecText SpecFields SpecHeader SpecRows SpecTable SpecDoc.
Import ListNotations.
Local Open Scope list_scope.
Local Open Scope N_scope.

(** The figure has an extractor of its own which does not recognise its columns. *)
Definition unrecognised (P : parser) (m : meta) (tbl : elem) : Prop :=
  exists c hs, lookup_fig (p_fig_overrides P) (m_fig m) = Some c /\ table_headers tbl hs
    /\ forall k l d, ~ uses_columns c hs k l d.

(** ** Outputs *)

(** The document whose only table is [t]. *)
Definition single (t : elem) : elem :=
  Elem (utf8 "html") [] [] [(Elem t_body [] [] [(t, [])], [])].

(** The lint of the [n]-th figure without an id. *)
Definition lint_no_id (n : N) (title : str) : lint :=
  mkLint T1008 (missing_name n) (code_msg T1008) None [(utf8 "title", JStr title)].

(** [es] is the concatenation of what the tables produce on their own (without an exception),
    the figures without an id being numbered from [n]. *)
Inductive in_order (P : parser) : N -> list elem -> list event -> Prop :=
| io_nil n : in_order P n [] []
| io_no_id n t title ts es :
    unidentified t title -> in_order P (n + 1) ts es ->
    in_order P n (t :: ts) (EvLint (lint_no_id n title) :: es)
| io_table n t ts e es :
    (forall title, ~ unidentified t title) -> parse_doc P (single t) = (Ok tt, e) ->
    in_order P n ts es -> in_order P n (t :: ts) (e ++ es).

(** The titles of the figures without an id, in document order. *)
Inductive no_id_titles : list elem -> list str -> Prop :=
| nt_nil : no_id_titles [] []
| nt_no_id t title ts l : unidentified t title -> no_id_titles ts l -> no_id_titles (t :: ts) (title :: l)
| nt_table t ts l : (forall title, ~ unidentified t title) -> no_id_titles ts l -> no_id_titles (t :: ts) l.

(** Everything but the entries about figures without an id. *)
Definition other_than_no_id (t : list event) : list event :=
  filter (fun e => match e with EvLint l => negb (code_eqb (l_code l) T1008) | EvEnt _ => true end) t.

(** Extracting the table on its own, without --skip-figure-on-error, raises. *)
Definition raises (P : parser) (t : elem) : Prop := exists e es, parse_doc (no_skip P) (single t) = (Exn e, es).

(** ... and for one figure with its nested figures: *)
Definition figure_raises (P : parser) (n : meta * elem) : Prop :=
  exists e f es, parse_figure (no_skip P) (fst n) (snd n) false = (Exn e, f, es).
Definition figure_entities (P : parser) (n : meta * elem) : list entity :=
  ents_of (snd (parse_figure P (fst n) (snd n) false)).
Definition figure_errors (P : parser) (n : meta * elem) : list lint :=
  errors (snd (parse_figure P (fst n) (snd n) false)).
