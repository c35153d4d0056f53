(** C80: everything a document gives, entities and lint entries, in order. *)
From Coq Require Import NArith ZArith List Bool String Lia ZifyBool ZifyN.
From Verif Require Import PyTables PyStr PyStrFacts Regex Regexes Xml Json Lint RowIter Helpers Extract Document Output
  RegexFacts MFacts SpecText SpecFields SpecLabel SpecHeader SpecRows SpecTable SpecDoc SpecRun SpecReads SpecEnd SpecOutput SpecOut
  RangeProofs LabelProofs ValidateProofs RowProofs HeaderProofs TableProofs SizeProofs Prop_Label Prop_Range Prop_Header DocProofs DocFlow DocRuns
  Prop_Table Prop_Doc Prop_Output JsonText SpecJson JsonProofs Prop_Json SpecStage2 Prop_Stage2 ReadProofs ReadFigs Prop_Reads EndProofs OutProofs OutFigure OutUnique SpecNames NameProofs CellRead.
Import ListNotations.
Local Open Scope list_scope.
Local Open Scope N_scope.
Local Open Scope m_scope.

(** What a figure gives is determined ... *)
Theorem C80_unique P n e es e' es' : struct_overrides P -> outputs P n e es -> outputs P n e' es' -> e = e' /\ es = es'.
Proof. intros SO A B. exact (outputs_fun P SO n e es A e' es' B). Qed.
Print Assumptions C80_unique.

(** ... and it is what extracting the figure (without --skip-figure-on-error) gives, which ends
    with an exception unless the figure and the figures in it are complete. *)
Theorem C80_figure P m tbl : tame P -> struct_overrides P -> m_fig m <> [] ->
  exists e es r f, outputs P (m, tbl) e es /\ parse_figure (no_skip P) m tbl false = (r, f, es)
    /\ (forall e' es', outputs P (m, tbl) e' es' -> e' = e /\ es' = es)
    /\ (e = Complete <-> r = Ok tt) /\ (e <> Complete -> exists x, r = Exn x).
Proof.
  intros TM SO Hm. destruct (figure_told P TM (S (esize tbl)) m tbl (Nat.lt_succ_diag_r _) Hm) as (e & O & E).
  change (no_skip P) with (with_skip false P). unfold out in O. cbn [fst snd] in O.
  destruct (parse_figure (with_skip false P) m tbl false) as [[r f] es]. cbn [snd] in O. exists e, es, r, f.
  split; [exact O|]. split; [reflexivity|]. split; [intros e' es' O'; destruct (C80_unique P _ _ _ _ _ SO O O'); auto|].
  destruct e; cbn [ended fst snd] in E.
  - destruct E as [-> _]. split; [tauto | congruence].
  - destruct E as [(x & ->) _]. split; [split; discriminate | eauto].
  - destruct E as [-> _]. split; [split; discriminate | eauto].
Qed.
Print Assumptions C80_figure.

(** A figure that is not nested, with or without --skip-figure-on-error. *)
Lemma top_figure P m tbl : tame P -> struct_overrides P -> named m -> m_parent m = None ->
  exists e r f es, outputs P (m, tbl) e es /\ parse_figure P m tbl false = (r, f, es)
    /\ ((goes_on P e /\ r = Ok tt) \/ (~ goes_on P e /\ exists x, r = Exn x)).
Proof.
  intros TM SO NM MP. destruct (figure_told P TM (S (esize tbl)) m tbl (Nat.lt_succ_diag_r _) (proj1 NM)) as (e & O & E).
  pose proof (skip_run P TM (S (esize tbl)) m tbl (Nat.lt_succ_diag_r _) NM) as SR. unfold out in O. cbn [fst snd] in O.
  pose proof (f_equal (fun Q => parse_figure Q m tbl false) (with_skip_id P)) as WI. cbv beta in WI.
  destruct (parse_figure (with_skip false P) m tbl false) as [[r0 f0] t] eqn:E0. cbn [snd] in O.
  destruct SR as (r2 & f2 & E2 & _ & T2). specialize (T2 MP).
  exists e. unfold goes_on. destruct (p_skip P) eqn:SK; rewrite <- WI.
  - rewrite E2. exists r2, f2, t. split; [exact O|]. split; [reflexivity|].
    destruct e; cbn [ended fst snd] in E.
    + left. split; [auto|]. destruct E as [-> _]. destruct T2 as [T2|(-> & T2 & _)]; [exact T2 | discriminate].
    + left. split; [auto|]. destruct T2 as [T2|(-> & _ & MM)]; [exact T2|]. exfalso.
      destruct MM as (c & hs & LK & TH & CA). destruct (figure_flow_told P m tbl (proj1 NM)) as (hls & _ & [(hs' & LK' & _) | [(_ & FE) | (x & HD & _)]]).
      * congruence.
      * specialize (FE false false). rewrite E0 in FE. injection FE as _ -> _. destruct E as [_ E]. discriminate.
      * eapply handled_unrecognised; [exact HD|]. exists c, hs. split; [exact LK|]. split; [exact TH|]. apply can_apply_columns. exact CA.
    + right. split; [intros [H|[H _]]; discriminate|]. inversion O; subst; try (destruct e; discriminate).
      destruct (figure_flow_told P m tbl (proj1 NM)) as (hls' & _ & [(hs' & LK' & _) | [(_ & FE) | (x & HD & _)]]).
      * match goal with U : unrecognised P m tbl |- _ => destruct U as (? & ? & LK & _) end. congruence.
      * specialize (FE true false). rewrite E2 in FE. injection FE as -> _ _. eauto.
      * destruct (handled_unrecognised P m tbl x HD). assumption.
  - rewrite E0. exists r0, f0, t. split; [exact O|]. split; [reflexivity|]. destruct e; cbn [ended fst snd] in E.
    + left. split; [auto | tauto].
    + right. split; [intros [H|[_ H]]; discriminate | destruct E as [(x & ->) _]; eauto].
    + right. split; [intros [H|[_ H]]; discriminate | destruct E as [-> _]; eauto].
Qed.

Definition run_ok (r : res unit) (ok : bool) : Prop := if ok then r = Ok tt else exists x, r = Exn x.
Lemma doc_told P : tame P -> struct_overrides P -> forall ts n f,
  exists ok r f' es, doc_outputs P n ts ok es /\ parse_tables P n ts f = (r, f', es) /\ run_ok r ok.
Proof.
  intros TM SO. induction ts as [|t ts IH]; intros n f.
  - exists true, (Ok tt), f, []. split; [constructor|]. split; reflexivity.
  - cbn [parse_tables]. pose proof (classify_spec t) as CS. destruct (classify t) as [| |title|m tbl] eqn:C.
    + exists false, (Exn EXPath), f, []. split; [apply do_rowless; exact CS|]. split; [reflexivity|]. eexists. reflexivity.
    + destruct (IH n f) as (ok & r & f' & es & D & E & R). exists ok, r, f', es. split; [apply do_untitled; assumption|]. split; assumption.
    + destruct (IH (n + 1) f) as (ok & r & f' & es & D & E & R). exists ok, r, f', (EvLint (lint_no_id n title) :: es).
      split; [apply do_no_id; assumption|]. split; [|exact R].
      erewrite bind_ok by (apply add_issue_tbl; [apply missing_named | reflexivity]). rewrite E. reflexivity.
    + pose proof C as CF. apply classify_figure in CF as (C1 & C2 & _).
      destruct (top_figure P m tbl TM SO) as (e & r1 & f1 & es1 & O & E1 & R1); [split; [exact C1 | congruence] | exact C2 |].
      unfold bind. rewrite (figure_flag P m tbl f C1), E1. destruct R1 as [(G & ->)|(G & x & ->)].
      * destruct (IH n f1) as (ok & r & f' & es & D & E & R). rewrite E. exists ok, r, f', (es1 ++ es). split; [eapply do_figure; eassumption|]. split; [reflexivity | exact R].
      * exists false, (Exn x), f1, es1. split; [eapply do_raise; eassumption|]. split; [reflexivity | eexists; reflexivity].
Qed.
Lemma doc_fun P : struct_overrides P -> forall ts n ok es ok' es', doc_outputs P n ts ok es -> doc_outputs P n ts ok' es' -> ok = ok' /\ es = es'.
Proof.
  intros SO ts n ok es ok' es' H. revert ok' es'. induction H as [n|n t ts R|n t ts ok es U _ IH|n t title ts ok es U _ IH|n t m tbl e en ts ok es I O G _ IH|n t m tbl e en ts I O G];
    intros ok' es' H'; inversion H'; subst; try (split; reflexivity);
    destruct (classify_iff t) as (C1 & C2 & C3 & C4);
    repeat match goal with
    | X : unidentified t _ |- _ => apply C1 in X
    | X : rowless t |- _ => apply C2 in X
    | X : untitled t |- _ => apply C3 in X
    | X : identified t _ _ |- _ => apply C4 in X
    end;
    try match goal with X : classify t = _, Y : classify t = _ |- _ => rewrite X in Y; try discriminate Y end.
  - apply IH. assumption.
  - match goal with E : FNoId _ = FNoId _ |- _ => injection E as <- end.
    match goal with D : doc_outputs P _ ts _ _ |- _ => destruct (IH _ _ D) as [-> ->] end. auto.
  - match goal with E : FFigure _ _ = FFigure _ _ |- _ => injection E as <- <- end.
    match goal with D : doc_outputs P _ ts _ _, X : outputs P (m, tbl) _ _ |- _ => destruct (IH _ _ D) as [-> ->]; destruct (C80_unique P _ _ _ _ _ SO O X) as [-> ->] end. auto.
  - match goal with E : FFigure _ _ = FFigure _ _ |- _ => injection E as <- <- end.
    match goal with X : outputs P (m, tbl) _ _ |- _ => destruct (C80_unique P _ _ _ _ _ SO O X) as [-> ->] end. contradiction.
  - match goal with E : FFigure _ _ = FFigure _ _ |- _ => injection E as <- <- end.
    match goal with X : outputs P (m, tbl) _ _ |- _ => destruct (C80_unique P _ _ _ _ _ SO O X) as [-> ->] end. contradiction.
  - match goal with E : FFigure _ _ = FFigure _ _ |- _ => injection E as <- <- end.
    match goal with X : outputs P (m, tbl) _ _ |- _ => destruct (C80_unique P _ _ _ _ _ SO O X) as [-> ->] end. auto.
Qed.

(** The output of a document is exactly the specified one, and it ends without an exception
    exactly if that says so. *)
Theorem C80_document P doc ok es : tame P -> struct_overrides P ->
  doc_outputs P 0 (figures doc) ok es <-> exists r, parse_doc P doc = (r, es) /\ (if ok then r = Ok tt else exists x, r = Exn x).
Proof.
  intros TM SO. destruct (doc_told P TM SO (figures doc) 0 false) as (ok' & r & f & es' & D & E & R). unfold parse_doc. rewrite E. split.
  - intros D'. destruct (doc_fun P SO _ _ _ _ _ _ D D') as [<- <-]. exists r. split; [reflexivity | exact R].
  - intros (r' & [= <- <-] & R'). assert (ok = ok') as -> by (destruct ok, ok'; try reflexivity; cbn [run_ok] in *; [destruct R as (? & ?) | destruct R' as (? & ?)]; congruence). exact D.
Qed.
Print Assumptions C80_document.

Lemma lint_says l : says_lint l (lint_json l).
Proof.
  unfold says_lint, lint_json, optional. destruct l as [c f m [r|] x]; cbn [l_code l_fig l_msg l_row l_ctx]; apply object_of; try keys; intros q; cbn [app map fst snd In]; tauto.
Qed.

(** The JSON file: of the specified output, all entities in order; and, if the document was
    processed to its end, all lint entries in order but the ignored ones.  Otherwise the run fails
    and there is no lint list. *)
Theorem C80_file version args b inp root k v ok es :
  html_of inp = Tree root -> converted inp ->
  first_attr root "data-spec" k -> first_attr root "data-revision" v ->
  doc_outputs (get_parser (a_skip args) (lower k) (lower v)) 0 (figures root) ok es ->
  exists d j m js, r_file (parse_spec version args b None inp) = Some d /\ json_text (file_text d) j
    /\ object j [("meta"%string, JObj m); ("entities"%string, JList js)] /\ Forall2 SpecStage2.says (ents_of es) js
    /\ (if ok then r_end (parse_spec version args b None inp) = Finished
                   /\ exists ls lj, without (fun l => In (l_code l) (a_ignore args)) (lints_of es) ls
                        /\ Forall2 says_lint ls lj /\ (forall x, In (utf8 "lint", x) m <-> x = JList lj)
        else (exists e, r_end (parse_spec version args b None inp) = Failed e) /\ forall x, ~ In (utf8 "lint", x) m).
Proof.
  intros HS CV K V D. set (P := get_parser (a_skip args) (lower k) (lower v)) in *.
  pose proof (tame_parsers (a_skip args) (lower k) (lower v)) as TM. pose proof (struct_parsers (a_skip args) (lower k) (lower v)) as SO.
  fold P in TM, SO. apply (C80_document P root ok es TM SO) in D as (r & E & R).
  assert (JS := fun s H => json_stage_none version args b s root k v r es H K V E).
  assert (HR : forall total is, html_reports total is None = (map (fun i => (PHtml, i, total)) is, Some None)).
  { intros total is. induction is as [|i is IH]; [reflexivity|]. cbn. rewrite IH. reflexivity. }
  assert (G : exists rs, parse_spec version args b None inp = mkRun rs
     (Some (mkModel (doc_meta version (lower k) (lower v)
              ++ match r with Ok _ => [(utf8 "lint", JList (reported_lint (a_ignore args) es))] | _ => [] end)
       (map entity_json (ents_of es))))
     (match r with Ok _ => Finished | Exn e => Failed (PDoc e) | OutOfFuel => Failed (PDoc ERuntime) end)).
  { destruct inp as [s | total is raised s]; cbn [html_of converted] in HS, CV; unfold parse_spec.
    - rewrite (JS s HS). eexists. reflexivity.
    - subst raised. destruct b; [rewrite HR|]; rewrite (JS s HS); eexists; reflexivity. }
  destruct G as [rs ->]. cbn [r_file r_end].
  match goal with |- context [Some ?d] => exists d, (model_json d), (mo_meta d), (mo_entities d) end. split; [reflexivity|]. split; [apply C71_text|].
  split; [apply object_of; [keys | members]|]. cbn [mo_entities mo_meta].
  split; [clear; induction (ents_of es); constructor; auto using entity_says|].
  assert (NM : forall x, ~ In (utf8 "lint", x) (doc_meta version (lower k) (lower v))).
  { intros x I. apply (in_map fst) in I. revert I. cbn [fst]. change (map fst (doc_meta version (lower k) (lower v))) with [utf8 "specification"; utf8 "revision"; utf8 "format version"; utf8 "spex version"].
    intros I. apply smem_In in I. vm_compute in I. discriminate. }
  destruct ok.
  - subst r. split; [reflexivity|]. unfold reported_lint.
    exists (filter (fun l => negb (smem (code_name (l_code l)) (map code_name (a_ignore args)))) (lints_of es)).
    exists (reported_lint (a_ignore args) es). unfold reported_lint. split; [|split].
    + induction (lints_of es) as [|l ls IH]; [constructor|]. cbn [filter].
      destruct (smem (code_name (l_code l)) (map code_name (a_ignore args))) eqn:Q; cbn [negb].
      * apply wo_drop; [|exact IH]. apply smem_In, in_map_iff in Q as (c & Q & I). apply code_name_inj in Q as <-. exact I.
      * apply wo_keep; [|exact IH]. intros I. apply (in_map code_name) in I. apply smem_In in I. congruence.
    + clear. induction (filter _ _) as [|l ls IH]; constructor; [apply lint_says | exact IH].
    + intros x. rewrite in_app_iff. cbn [In]. split.
      * intros [I|[[= <-]|[]]]; [destruct (NM _ I) | reflexivity].
      * intros ->. right. left. reflexivity.
  - destruct R as (x & ->). split; [eauto|]. intros y. rewrite app_nil_r. apply NM.
Qed.
Print Assumptions C80_file.

(** ** Examples *)
Local Open Scope string_scope.
Local Open Scope list_scope.

(** With and without --skip-figure-on-error: figures 3 and 4 with nested ones, 4 cut short by the
    second of these; a figure without an id, a table that is no figure. *)
Example C80_ex_skip : exists es, doc_outputs sample_parser 0 (figures (d_doc [doc_good; doc_noid; doc_bad; doc_text; doc_noid])) true es
  /\ map brief_event es = [(true, (utf8 "3_8", Some (utf8 "3"))); (true, (utf8 "3_8", Some (utf8 "3"))); (true, (utf8 "3", None));
       (false, (utf8 "FIG_ID_MISSING[0]", Some (utf8 "T1008")));
       (true, (utf8 "4_8", Some (utf8 "4"))); (false, (utf8 "4_8", Some (utf8 "T1000")));
       (false, (utf8 "FIG_ID_MISSING[1]", Some (utf8 "T1008")))].
Proof.
  pose proof skip_sample as S. unfold brief_run in S.
  destruct (parse_doc sample_parser (d_doc [doc_good; doc_noid; doc_bad; doc_text; doc_noid])) as [r es] eqn:E. cbn [fst snd] in S.
  exists es. split; [|exact (f_equal snd S)]. apply C80_document; [exact sample_tame | intros ? ? [] |]. exists r. split; [exact E | exact (f_equal fst S)].
Qed.
Example C80_ex_fail : exists es, doc_outputs (no_skip sample_parser) 0 (figures (d_doc [doc_good; doc_noid; doc_bad; doc_text; doc_noid])) false es
  /\ map brief_event es = [(true, (utf8 "3_8", Some (utf8 "3"))); (true, (utf8 "3_8", Some (utf8 "3"))); (true, (utf8 "3", None));
       (false, (utf8 "FIG_ID_MISSING[0]", Some (utf8 "T1008")));
       (true, (utf8 "4_8", Some (utf8 "4"))); (false, (utf8 "4_8", Some (utf8 "T1000")))].
Proof.
  pose proof fail_sample as S. unfold brief_run in S.
  destruct (parse_doc (no_skip sample_parser) (d_doc [doc_good; doc_noid; doc_bad; doc_text; doc_noid])) as [r es] eqn:E. cbn [fst snd] in S.
  exists es. split; [|exact (f_equal snd S)]. apply C80_document; [exact sample_tame | intros ? ? [] |]. exists r. split; [exact E | exists EXPath; exact (f_equal fst S)].
Qed.

(** A figure with several entries: a header under another name, a range that is no number, a
    repeated label and a gap. *)
Definition out_fig : elem := d_table (d_cells ["Figure 9: X"] :: [d_row [d_head "Bit"; d_head "Description"];
  d_cells ["31:24"; "Two (TWO): t."]; d_cells ["15:8"; "Two (TWO): t."]; d_cells ["abc"; "(x)"]]).
Example C80_ex_lints : exists es, doc_outputs sample_parser 0 (figures (d_doc [out_fig])) true es
  /\ map (fun e => match e with EvLint l => code_name (l_code l) | EvEnt _ => [] end) es
     = [utf8 "T1006"; utf8 "R1001"; utf8 "L1002"; utf8 "T1002"; []].
Proof.
  destruct (parse_doc sample_parser (d_doc [out_fig])) as [r es] eqn:E. exists es. split.
  - apply C80_document; [exact sample_tame | intros ? ? [] |]. exists r. split; [exact E|]. apply (f_equal fst) in E. cbn [fst] in E. rewrite <- E. vm_compute. reflexivity.
  - apply (f_equal snd) in E. cbn [snd] in E. rewrite <- E. vm_compute. reflexivity.
Qed.

(** The file of a run with two figures without an id, whose entries are ignored. *)
Definition out_file (ig : list code) := match r_file (parse_spec (utf8 "1") (mkArgs false ig) true None o_input) with Some d => d | None => mkModel [] [] end.
Example C80_ex_file ig : exists es j m js, doc_outputs (get_parser false (lower (utf8 "NVM")) (lower (utf8 "9.9"))) 0 (figures (o_doc [doc_good; doc_noid])) true es
  /\ json_text (file_text (out_file ig)) j /\ object j [("meta", JObj m); ("entities", JList js)] /\ Forall2 SpecStage2.says (ents_of es) js
  /\ exists ls lj, without (fun l => In (l_code l) ig) (lints_of es) ls /\ Forall2 says_lint ls lj /\ (forall x, In (utf8 "lint", x) m <-> x = JList lj).
Proof.
  destruct (parse_doc (get_parser false (lower (utf8 "NVM")) (lower (utf8 "9.9"))) (o_doc [doc_good; doc_noid])) as [r es] eqn:E.
  assert (D : doc_outputs (get_parser false (lower (utf8 "NVM")) (lower (utf8 "9.9"))) 0 (figures (o_doc [doc_good; doc_noid])) true es).
  { apply C80_document; [apply tame_parsers | apply struct_parsers |]. exists r. split; [exact E|]. apply (f_equal fst) in E. cbn [fst] in E. rewrite <- E. vm_compute. reflexivity. }
  destruct (C80_file (utf8 "1") (mkArgs false ig) true o_input _ _ _ _ _ eq_refl Logic.I (proj1 opened) (proj2 opened) D) as (d & j & m & js & F & J & O & S & _ & L).
  exists es, j, m, js. unfold out_file. rewrite F. auto 6.
Qed.
