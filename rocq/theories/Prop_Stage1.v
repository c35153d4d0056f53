(** Property C81: what reading a docx document gives. *)
From Coq Require Import NArith ZArith List Bool String Lia.
From Verif Require Import PyStr PyStrFacts Xml RowIter Docx Render SpecFmt SpecQuery SpecRuns SpecGrid SpecList SpecHtml SpecDocx SpecStage1.
From Verif Require Import QueryProofs RunProofs GridProofs ListProofs DocxTotal Prop_Grid TilingProofs Prop_HtmlTable Prop_List Prop_Docx Stage1Proofs.
Import ListNotations.
Local Open Scope string_scope.
Local Open Scope list_scope.

(** Reading a docx document whose tables consist of rectangles gives exactly what the document
    means. *)
Theorem C81_document d us : regular_tables d -> (parse_docx d = DOk us <-> document_means d us).
Proof.
  intros REG. unfold parse_docx, document_means, w_all. split.
  - destruct (parse_tables d _ []) as [[us1 s]| |] eqn:E; cbn [dbind]; try discriminate. intros [= <-]. exists s.
    apply (tables_sound d REG); [apply incl_refl | exact E].
  - intros (s & T). destruct (tables_complete d _ _ _ _ T) as [E|E]; [|rewrite E; reflexivity].
    exfalso. apply (parse_docx_nf d). unfold parse_docx, w_all. rewrite E. reflexivity.
Qed.
Print Assumptions C81_document.
(** It means one thing at most, and reading one that means nothing is an exception. *)
Theorem C81_unique d us us' : document_means d us -> document_means d us' -> us = us'.
Proof.
  intros (s & T) (s' & T'). pose proof (parse_docx_nf d) as NF. unfold parse_docx, w_all in NF.
  destruct (tables_complete d _ _ _ _ T) as [E|E]; [rewrite E in NF; exfalso; apply NF; reflexivity|].
  destruct (tables_complete d _ _ _ _ T') as [E'|E']; congruence.
Qed.
Print Assumptions C81_unique.
Corollary C81_error d : regular_tables d -> ((exists e, parse_docx d = DErr e) <-> forall us, ~ document_means d us).
Proof.
  intros REG. split.
  - intros (e & E) us M. apply (C81_document d us REG) in M. congruence.
  - intros N. destruct (parse_docx d) as [us|e|] eqn:E; [|eauto|exfalso; exact (parse_docx_nf d E)].
    exfalso. exact (N us (proj1 (C81_document d us REG) E)).
Qed.
Print Assumptions C81_error.
(** The file written shows what the document means. *)
Corollary C81_shown d us version fname title rev ts c : document_means d us -> html_doc version fname title rev us = (ts, c) ->
  plain version -> plain fname -> plain title -> match rev with Some r => plain r | None => True end ->
  exists rest root, ts = TDoctype :: TNl :: rest /\ content rest [] [(root, [10%N])]
    /\ document_shows (emit_rules css_attrs (c_txt c)) (emit_rules fill_css (c_cell c)) version fname title rev us root.
Proof.
  intros (s & T) H PV PF PT PR. assert (PD : parse_docx d = DOk us).
  { unfold parse_docx, w_all. pose proof (parse_docx_nf d) as NF. unfold parse_docx, w_all in NF.
    destruct (tables_complete d _ _ _ _ T) as [E|E]; rewrite E in *; [exfalso; apply NF; reflexivity | reflexivity]. }
  destruct (C66_document d us version fname title rev ts c PD H PV PF PT PR) as (rest & root & E & C & _ & S). exists rest, root. auto.
Qed.
Print Assumptions C81_shown.

(** A table with a paragraph, a list with a list in it and a table with merged cells in a cell. *)
Definition s1_tc : welem := W 310 (utf8 "w:tc") [] None
  [W 311 (utf8 "w:tcPr") [] None [W 312 (utf8 "w:shd") [(utf8 "w:fill", utf8 "c0c0c0")] None []];
   W 313 (utf8 "w:p") [] None [tx_run "see"]; lx_par "1" "0" "a"; lx_par "1" "1" "b"; lx_par "1" "0" "c"; ok_tbl; W 314 (utf8 "w:p") [] None []].
Definition s1_tbl : welem := w_tbl 300 [w_tr 301 [s1_tc]].
Definition s1_doc : docx := mkDocx (lx_e "w:document" [] [lx_e "w:body" [] [s1_tbl]]) (dx_num lx_doc) (lx_e "w:styles" [] []).
Example C81_ex : regular_tables s1_doc
  /\ exists l l1 ok, document_means s1_doc [HTable 300 None
       [[TC (utf8 "th") [HPar [mkSpan None (utf8 "see")];
                         HList l [LItem [mkSpan None (utf8 "a")]; LSub l1 [LItem [mkSpan None (utf8 "b")]]; LItem [mkSpan None (utf8 "c")]];
                         HTable 0 None ok] (1, 1)%Z (0, 0)%Z (Some (utf8 "c0c0c0"))]]]
     /\ map (map (fun t => (tc_span t, tc_origin t))) ok =
          [[((2, 2), (0, 0)); ((2, 2), (0, 0)); ((1, 1), (2, 0))]; [((2, 2), (0, 0)); ((2, 2), (0, 0)); ((1, 2), (2, 1))];
           [((1, 1), (0, 2)); ((1, 1), (1, 2)); ((1, 2), (2, 1))]]%Z.
Proof.
  assert (REG : regular_tables s1_doc).
  { intros t I T. cbn in I. repeat (destruct I as [<-|I]; [try discriminate T|]); try destruct I.
    - exists [[mkWc s1_tc 1 false]]. split; [wlayout|]. intros [|[|r]] row x c R B C; try discriminate R. injection R as <-.
      apply placed_begins0 in B. destruct B as [[= <- <-]|[]]. discriminate C.
    - exists ok_rows. split; [exact (proj1 C41_ex) | exact ok_aligned]. }
  split; [exact REG|]. do 3 eexists. split; [apply (C81_document _ _ REG); vm_compute; reflexivity | vm_compute; reflexivity].
Qed.
