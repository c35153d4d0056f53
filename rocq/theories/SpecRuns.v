(** Independent vocabulary for the text and the formats of paragraphs in docx documents. *)
From Coq Require Import NArith ZArith List Bool String.
From Verif Require Import PyStr Docx SpecQuery SpecFmt.
Import ListNotations.
Local Open Scope string_scope.
Local Open Scope list_scope.

(** The runs of a paragraph with the given children: w:r children, and the first w:r of each
    w:hyperlink and w:fldSimple. *)
Inductive runs : list welem -> list welem -> Prop :=
| rn_nil : runs [] []
| rn_run k ks rs : w_tag k = utf8 "w:r" -> runs ks rs -> runs (k :: ks) (k :: rs)
| rn_link k ks x rs : w_tag k = utf8 "w:hyperlink" \/ w_tag k = utf8 "w:fldSimple" -> first_child "w:r" k x ->
    runs ks rs -> runs (k :: ks) (x :: rs)
| rn_other k ks rs : w_tag k <> utf8 "w:r" -> w_tag k <> utf8 "w:hyperlink" -> w_tag k <> utf8 "w:fldSimple" ->
    runs ks rs -> runs (k :: ks) rs.
(** The text of a run is that of its first w:t. *)
Definition run_text (r : welem) (x : str) : Prop := exists t, first_child "w:t" r t /\ w_text t = Some x.
(** The texts of the runs that have one. *)
Inductive run_texts : list welem -> list str -> Prop :=
| rt_nil : run_texts [] []
| rt_none r rs xs : (forall x, ~ run_text r x) -> run_texts rs xs -> run_texts (r :: rs) xs
| rt_text r rs x xs : run_text r x -> run_texts rs xs -> run_texts (r :: rs) (x :: xs).
(** The texts of the runs that have one, with their formats. *)
Inductive runs_read (styles : welem) : list welem -> list span -> Prop :=
| rs_nil : runs_read styles [] []
| rs_none r rs sps : (forall x, ~ run_text r x) -> runs_read styles rs sps -> runs_read styles (r :: rs) sps
| rs_text r rs x o sps : run_text r x -> run_format styles r o -> runs_read styles rs sps ->
    runs_read styles (r :: rs) (mkSpan o x :: sps).
(** The spans of a paragraph. *)
Definition par_spans (d : docx) (p : welem) (sps : list span) : Prop :=
  exists rs, runs (w_kids p) rs /\ runs_read (dx_styles d) rs sps.
