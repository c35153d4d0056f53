(** Property C97: --skip-figure-on-error makes no difference to inputs in which no figure fails. *)
From Coq Require Import NArith ZArith List Bool String Lia.
From Verif Require Import PyStr PyStrFacts Xml Json JsonText Lint Extract Document Output Schema Cli Docx Render Css Disk.
From Verif Require Import MFacts SpecElem SpecDoc SpecRun SpecDisk DocProofs DocFlow DocRuns Prop_Table Prop_Doc Prop_DiskEx.
Import ListNotations.
Local Open Scope string_scope.
Local Open Scope list_scope.
Local Open Scope N_scope.

Lemma in_order_skip P : tame P -> forall n ts es, Forall (fun t => e_tag t = t_table) ts -> in_order (no_skip P) n ts es -> in_order P n ts es.
Proof.
  intros TM n ts es F H. induction H as [n|n t title ts es U H IH|n t ts e es U E H IH]; [constructor| |]; apply Forall_inv in F as T; apply Forall_inv_tail in F.
  - apply io_no_id; auto.
  - apply io_table; [exact U| |auto]. destruct (table_cmp P t TM T) as (r0 & es0 & r & E0 & E1 & _ & _ & R & _).
    rewrite E in E0. injection E0 as <- <-. rewrite (R eq_refl) in E1. exact E1.
Qed.
(** If the document is processed without the option, it is processed with it, and what comes of
    it is the same. *)
Theorem C97_document P doc es : tame P -> parse_doc (no_skip P) doc = (Ok tt, es) -> parse_doc P doc = (Ok tt, es).
Proof. intros TM E. apply C23_concatenation in E. apply C23_concatenation. exact (in_order_skip P TM _ _ _ (figures_tables doc) E). Qed.
(** The other way round: it is, if the run with the option reports no failed figure (T1000). *)
Theorem C97_exactly P doc es : tame P -> p_skip P = true ->
  (parse_doc (no_skip P) doc = (Ok tt, es) <-> parse_doc P doc = (Ok tt, es) /\ errors es = []).
Proof.
  intros TM SK. split.
  - intros E. pose proof (C97_document P doc es TM E) as E'. split; [exact E'|]. clear E'. apply C23_concatenation in E.
    pose proof (figures_tables doc) as F. revert F E. generalize 0. generalize (figures doc). intros ts n F E.
    induction E as [n|n t title ts es U E IH|n t ts e es U ET E IH]; [reflexivity| |]; apply Forall_inv in F as T; apply Forall_inv_tail in F.
    + exact (IH F).
    + rewrite errors_app, (IH F), app_nil_r. destruct (table_cmp P t TM T) as (r0 & es0 & r & E0 & E1 & _ & _ & _ & _ & _ & _ & R & _).
      rewrite ET in E0. injection E0 as <- <-. exact (R eq_refl).
  - intros [E N]. apply C23_concatenation in E. apply C23_concatenation.
    pose proof (figures_tables doc) as F. revert F E N. generalize 0. generalize (figures doc). intros ts n F E.
    induction E as [n|n t title ts es U E IH|n t ts e es U ET E IH]; intros N; [constructor| |]; apply Forall_inv in F as T; apply Forall_inv_tail in F.
    + apply io_no_id; [exact U | exact (IH F N)].
    + rewrite errors_app in N. apply app_eq_nil in N as [N1 N2]. apply io_table; [exact U| |exact (IH F N2)].
      destruct (table_cmp P t TM T) as (r0 & es0 & r & E0 & E1 & N0 & _ & _ & _ & _ & _ & _ & X). rewrite ET in E1. injection E1 as <- <-.
      destruct r0 as [[]|x|]; [exact E0| |congruence]. destruct (X x eq_refl) as [L|(_ & K & _)]; [rewrite N1 in L; discriminate L | discriminate K].
Qed.
(** If a figure fails, what was found before it failed stays, and nothing else is put before it. *)
Theorem C97_more P doc r es : tame P -> parse_doc (no_skip P) doc = (r, es) -> exists r' more, parse_doc P doc = (r', es ++ more).
Proof.
  intros TM. unfold parse_doc. pose proof (figures_tables doc) as F. revert F. generalize (figures doc). intros ts F E.
  assert (G : forall n f f0, exists a b c x y more, Document.parse_tables (no_skip P) n ts f = (a, b, c) /\ Document.parse_tables P n ts f0 = (x, y, c ++ more)).
  { clear E r es. induction F as [|t ts T F IH]; intros n f f0; [exists (Ok tt), f, [], (Ok tt), f0, []; split; reflexivity|].
    pose proof (single_run P t T) as S1. pose proof (single_run (no_skip P) t T) as S0.
    destruct (table_cmp P t TM T) as (r0 & es0 & r & E0 & E1 & N0 & N1 & R & _). rewrite E1 in S1. rewrite E0 in S0. cbn [Document.parse_tables].
    destruct (classify t) as [| |title|m tbl] eqn:C.
    - exists (Exn EXPath), f, [], (Exn EXPath), f0, []. split; reflexivity.
    - apply IH.
    - destruct (IH (n + 1) f f0) as (a & b & c & x & y & more & A & B).
      do 5 eexists. exists more. split; (erewrite bind_ok by (apply add_issue_tbl; [apply missing_named | reflexivity])); [rewrite A; reflexivity | rewrite B; reflexivity].
    - assert (FG : forall Q f, parse_figure Q m tbl f = parse_figure Q m tbl false) by (intros Q g; apply figure_flag; apply classify_figure in C; tauto).
      unfold bind. rewrite (FG _ f), (FG _ f0). unfold outcome, out in S0, S1. cbn [fst snd] in S0, S1.
      destruct (parse_figure P m tbl false) as [[r1 f1] t1], (parse_figure (no_skip P) m tbl false) as [[r2 f2] t2]. cbn [fst snd] in S0, S1.
      injection S0 as -> ->. injection S1 as -> ->. destruct r2 as [[]|x|]; [| |congruence].
      + rewrite (R eq_refl). destruct (IH n f2 f1) as (a & b & c & x & y & more & A & B). rewrite A, B. do 5 eexists. exists more. split; [reflexivity | rewrite app_assoc; reflexivity].
      + destruct r1 as [[]|z|].
        * destruct (Document.parse_tables P n ts f1) as [[u v] w]. do 5 eexists. exists w. split; reflexivity.
        * do 5 eexists. exists []. split; [reflexivity | rewrite app_nil_r; reflexivity].
        * do 5 eexists. exists []. split; [reflexivity | rewrite app_nil_r; reflexivity]. }
  destruct (G 0 false false) as (a & b & c & x & y & more & A & B). rewrite A in E. injection E as <- <-. rewrite B. eauto.
Qed.

(** ** The parsing of one input *)

Lemma unskipped key rev : get_parser false key rev = no_skip (get_parser true key rev).
Proof. unfold get_parser. destruct (find _ _) as [[? [? ?]]|]; reflexivity. Qed.
Lemma skip_stage version ignore b w s rs m :
  json_stage version (mkArgs false ignore) b w s = (rs, m, Finished) -> json_stage version (mkArgs true ignore) b w s = (rs, m, Finished).
Proof.
  unfold json_stage. destruct (open_doc s) as [e|[[root key] rev]]; [discriminate|]. cbn [a_skip a_ignore]. rewrite unskipped.
  destruct (parse_doc (no_skip _) root) as [[[]|x|] evs] eqn:E.
  - rewrite (C97_document _ _ _ (tame_parsers true key rev) E). auto.
  - destruct (write_events _ _ _ _ _ _) as [[? ?] [?|]]; discriminate.
  - destruct (write_events _ _ _ _ _ _) as [[? ?] [?|]]; discriminate.
Qed.
(** The JSON file, the progress reports and the end are the same with the option if the input is
    parsed to the end without it. *)
Theorem C97_input version ignore b w inp : r_end (parse_spec version (mkArgs false ignore) b w inp) = Finished ->
  parse_spec version (mkArgs true ignore) b w inp = parse_spec version (mkArgs false ignore) b w inp.
Proof.
  assert (G : forall w s, snd (json_stage version (mkArgs false ignore) b w s) = Finished ->
    json_stage version (mkArgs true ignore) b w s = json_stage version (mkArgs false ignore) b w s).
  { intros w' s. destruct (json_stage version (mkArgs false ignore) b w' s) as [[rs m] e] eqn:E. cbn [snd]. intros ->. exact (skip_stage _ _ _ _ _ _ _ E). }
  unfold parse_spec. destruct w as [[|n]|]; [reflexivity| |]; (destruct inp as [s|total is raised s];
    [specialize (G (Some (N.pos n)) s) || specialize (G None s); destruct (json_stage version (mkArgs false ignore) b _ s) as [[rs m] e] eqn:E; cbn [r_end snd] in *; intros X; rewrite (G X); reflexivity|];
    destruct (if b then _ else _) as [rs [w'|]]; [|reflexivity]; destruct raised; [reflexivity|];
    specialize (G w' s); destruct (json_stage version (mkArgs false ignore) b _ s) as [[rs' m] e] eqn:E; cbn [r_end snd] in *; intros X; rewrite (G X); reflexivity).
Qed.

(** ** Runs *)

Section Run.
Variable version : str.
Variable read : str -> source.
Local Notation process := (Disk.process version read).
Local Notation loop := (Disk.loop version read).
Local Notation runs := (Disk.runs version read).

Definition skipping (k : command) : command := mkCommand true (k_ignore k) (k_validate k) (k_out k) (k_cwd k) (k_inputs k).
Definition failing (k : command) : command := mkCommand false (k_ignore k) (k_validate k) (k_out k) (k_cwd k) (k_inputs k).

Lemma skip_process ignore out d p w m : process (mkArgs false ignore) out d p w m Finished -> process (mkArgs true ignore) out d p w m Finished.
Proof.
  intros P. remember Finished as e eqn:EE. destruct P as [dir name r m NS ER F|dir name w S C|dir name w r m S C ER F]; [| discriminate EE |].
  - rewrite ER in EE. pose proof (C97_input version ignore false None _ EE) as X. rewrite ER in F. rewrite ER. rewrite <- X in F. rewrite <- X. eapply pr_html; eauto.
  - rewrite ER in EE. pose proof (C97_input version ignore false None _ EE) as X. rewrite ER in F. rewrite ER. rewrite <- X in F. rewrite <- X. eapply pr_docx; eauto.
Qed.
Lemma skip_loop ignore validate out d ins w : loop (mkArgs false ignore) validate out d ins w 0 -> loop (mkArgs true ignore) validate out d ins w 0.
Proof.
  intros L. remember 0 as st eqn:ES. induction L as [d|d p ins N|d p ins w m e A P W|d p ins w m e w' st A P W _ IH]; try discriminate ES; [constructor|].
  assert (e = Finished) as -> by (unfold well in W; destruct e; [reflexivity | discriminate W]).
  eapply lp_next; [exact A | apply skip_process; exact P | exact W | exact (IH ES)].
Qed.
(** A run with status 0 without the option writes the same with it, and has status 0. *)
Theorem C97_run k d w : runs (failing k) d w 0 -> runs (skipping k) d w 0.
Proof.
  unfold Disk.runs, failing, skipping. cbn [k_skip k_ignore k_validate k_out k_cwd k_inputs].
  destruct (forallb _ _); [|intros [_ X]; discriminate X]. destruct (match k_ignore k with Some t => arg_lintcode t | None => Some [] end); [|intros [_ X]; discriminate X].
  destruct (k_inputs k) as [|p ins]; [intros [_ X]; discriminate X|]. apply skip_loop.
Qed.
End Run.

(** Non-vacuity: a document in which no figure fails, one in which one does, and the run of C82. *)
Example C97_sample :
  let es := snd (parse_doc sample_parser (d_doc [doc_good; doc_noid; doc_text])) in
  parse_doc (no_skip sample_parser) (d_doc [doc_good; doc_noid; doc_text]) = (Ok tt, es) /\ ents_of es <> [] /\ p_skip sample_parser = true /\ tame sample_parser.
Proof.
  split; [vm_compute; reflexivity|]. split; [vm_compute; discriminate|]. split; [reflexivity | exact sample_tame].
Qed.
Example C97_sample_run : Disk.runs dk_version dk_read (skipping dk_cmd) dk_disk dk_w 0.
Proof. refine (C97_run dk_version dk_read dk_cmd dk_disk dk_w _). exact (proj1 C82_ex). Qed.
(** The option does make a difference if a figure fails: what follows it is found only with it. *)
Theorem C97_always_refuted : ~ forall P doc, tame P -> parse_doc (no_skip P) doc = parse_doc P doc.
Proof.
  intros H. specialize (H sample_parser (d_doc [doc_bad; doc_good]) sample_tame). apply (f_equal fst) in H. vm_compute in H. discriminate H.
Qed.
Print Assumptions C97_document.
Print Assumptions C97_exactly.
Print Assumptions C97_more.
Print Assumptions C97_input.
Print Assumptions C97_run.
Print Assumptions C97_sample.
Print Assumptions C97_sample_run.
Print Assumptions C97_always_refuted.
