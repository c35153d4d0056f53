(** Property C97 for what is logged and shown: --skip-figure-on-error makes no difference to
    inputs in which no figure fails. *)
From Coq Require Import NArith ZArith List Bool String Lia.
From Verif Require Import PyStr PyStrFacts Xml Json JsonText Lint RowIter Helpers Extract Document Output Schema Cli Docx Render Css Disk Messages RunLog.
From Verif Require Import MFacts SpecElem SpecDoc SpecRun SpecDisk MsgProofs Prop_Doc Prop_DiskEx Prop_RunLog Prop_Skip.
Import ListNotations.
Local Open Scope string_scope.
Local Open Scope list_scope.
Local Open Scope N_scope.

(** If the first computation ends without an exception, the second does the same. *)
Definition kept {A} (l0 l : L A) : Prop := forall f a f' t, l0 f = (Ok a, f', t) -> l f = (Ok a, f', t).
Lemma kept_same {A} (l : L A) : kept l l.
Proof. intros f a f' t E. exact E. Qed.
Lemma kept_bind {A B} (l0 l : L A) (k0 k : A -> L B) : kept l0 l -> (forall a, kept (k0 a) (k a)) -> kept (lbind l0 k0) (lbind l k).
Proof.
  intros H K f b f' t. unfold lbind. destruct (l0 f) as [[[a|e|] f1] t1] eqn:E; try discriminate. rewrite (H _ _ _ _ E).
  destruct (k0 a f1) as [[[b'|e|] f2] t2] eqn:E2; intros [= -> <- <-]. rewrite (K _ _ _ _ _ E2). reflexivity.
Qed.
Lemma kept_catch (l0 l : L unit) h0 h : kept l0 l -> (forall e f u f' t, h0 e f <> (Ok u, f', t)) -> kept (lcatch l0 h0) (lcatch l h).
Proof.
  intros H N f u f' t. unfold lcatch. destruct (l0 f) as [[[a|e|] f1] t1] eqn:E.
  - intros [= -> <- <-]. rewrite (H _ _ _ _ E). reflexivity.
  - destruct (h0 e f1) as [[r f2] t2] eqn:E2. intros [= -> -> <-]. destruct (N _ _ _ _ _ E2).
  - discriminate.
Qed.
Lemma kept_iter {A} (p0 p : A -> L unit) l : (forall a, kept (p0 a) (p a)) -> kept (literM p0 l) (literM p l).
Proof. intros H. induction l as [|x l IH]; cbn [literM]; [apply kept_same | apply kept_bind; auto]. Qed.

Section Messages.
Variable printable : N -> bool.
Variables spec revision : str.
Variable qualname : ecls -> str.
Local Notation log_struct_loop := (Messages.log_struct_loop spec revision qualname).
Local Notation log_struct_call := (Messages.log_struct_call spec revision qualname).
Local Notation log_run_extractor := (Messages.log_run_extractor spec revision qualname).
Local Notation log_parse_fig := (Messages.log_parse_fig printable spec revision qualname).
Local Notation log_tables := (Messages.log_tables printable spec revision qualname).
Local Notation log_doc := (Messages.log_doc printable spec revision qualname).

Lemma kept_sub p0 p m e : (forall m t, kept (p0 m t) (p m t)) -> kept (log_sub_table p0 m e) (log_sub_table p m e).
Proof. intros H. apply kept_iter. intros t. apply H. Qed.
Lemma kept_struct_loop p0 p x : (forall m t, kept (p0 m t) (p m t)) -> forall rows fin dyn fs,
  kept (log_struct_loop p0 x rows fin dyn fs) (log_struct_loop p x rows fin dyn fs).
Proof.
  intros H. induction rows as [|y rows IH]; intros fin dyn fs; cbn [Messages.log_struct_loop]; [apply kept_same|]. destruct (contains_th _); [apply IH|].
  destruct (extract_fields x (y_row y)) as [[[[rt ct] lt] c]|].
  - destruct (_ || _); [destruct (is_special_case rt); [apply IH|]; apply kept_bind; [apply kept_same | intros r; apply IH]|].
    apply kept_bind; [apply kept_same|]. intros r. apply kept_bind; [apply kept_same|]. intros l. apply kept_bind; [apply kept_sub; exact H | intros _; apply IH].
  - destruct (startswith _ _); [apply IH|]. destruct (startswith _ _); [apply kept_same|]. destruct (row_err_handler _ _) as [[| |] ex]; try apply kept_same. apply IH.
Qed.
Lemma kept_value_loop p0 p ov x : (forall m t, kept (p0 m t) (p m t)) -> forall rows fin fs,
  kept (log_value_loop p0 ov x rows fin fs) (log_value_loop p ov x rows fin fs).
Proof.
  intros H. induction rows as [|y rows IH]; intros fin fs; cbn [log_value_loop]; [apply kept_same|]. destruct (contains_th _); [apply IH|].
  assert (X : forall t : str, kept
     (if startswith ELLIPSIS t then log_value_loop p0 ov x rows fin (fs ++ [mkVField ELLIPSIS ELLIPSIS None]) else if startswith (utf8 "notes:") t then lret fs else log_value_loop p0 ov x rows fin fs)
     (if startswith ELLIPSIS t then log_value_loop p ov x rows fin (fs ++ [mkVField ELLIPSIS ELLIPSIS None]) else if startswith (utf8 "notes:") t then lret fs else log_value_loop p ov x rows fin fs)).
  { intros t. destruct (startswith _ _); [apply IH|]. destruct (startswith _ _); [apply kept_same | apply IH]. }
  destruct (key_elem x (y_row y)) as [a|]; [|apply X]. destruct (content_elem x (y_row y)) as [b|]; [|apply X].
  destruct (seqb _ _); [apply IH|]. apply kept_bind; [apply kept_same|]. intros l. apply kept_bind; [apply kept_sub; exact H | intros _; apply IH].
Qed.
Lemma kept_extractor p0 p P m tbl hs c mp : (forall m t, kept (p0 m t) (p m t)) ->
  match log_run_extractor p0 (no_skip P) m tbl hs c mp, log_run_extractor p P m tbl hs c mp with
  | Some l0, Some l => kept l0 l | None, None => True | _, _ => False end.
Proof.
  intros H. unfold Messages.log_run_extractor. destruct (col_index hs (mp_key mp) 0 None); [|exact Logic.I]. destruct (col_index hs (mp_label mp) 0 None); [|exact Logic.I].
  destruct (col_index hs (mp_content mp) 0 None); [|exact Logic.I]. destruct (ec_kind c) as [sk|].
  - unfold Messages.log_struct_call. destruct (row_iter tbl) as [rows fin]. apply kept_bind; [apply kept_struct_loop; exact H|]. intros [fs ex].
    apply kept_bind; [apply kept_same|]. intros _. apply kept_bind; [apply kept_same|]. intros _. destruct ex as [[m' t']|]; [apply H | apply kept_same].
  - unfold log_value_call. destruct (row_iter tbl) as [rows fin]. apply kept_bind; [apply kept_value_loop; exact H|]. intros fs. apply kept_same.
Qed.
Lemma error_raises P m c e f u f' t : log_fig_error printable spec revision qualname (no_skip P) m c e f <> (Ok u, f', t).
Proof.
  assert (X : forall A (l : L A) (k : A -> L unit), (forall a f u f' t, k a f <> (Ok u, f', t)) -> forall f u f' t, lbind l k f <> (Ok u, f', t)).
  { clear. intros A l k H f u f' t. unfold lbind. destruct (l f) as [[[a|z|] f1] t1]; [|discriminate|discriminate].
    destruct (k a f1) as [[r f2] t2] eqn:E. intros [= -> -> _]. exact (H _ _ _ _ _ E). }
  unfold log_fig_error. apply X. clear f u f' t. intros b. apply X. intros _ f u f' t. cbn [p_skip no_skip]. destruct (m_parent m); discriminate.
Qed.
Lemma kept_figure P n : forall m tbl, kept (log_parse_fig n (no_skip P) m tbl) (log_parse_fig n P m tbl).
Proof.
  induction n as [|n IH]; intros m tbl; cbn [Messages.log_parse_fig]; [apply kept_same|].
  apply kept_bind; [apply kept_same|]. intros _. apply kept_bind; [apply kept_same|]. intros hs.
  assert (X : forall c mp, kept
    (match log_run_extractor (log_parse_fig n (no_skip P)) (no_skip P) m tbl hs c mp with Some run => lcatch run (log_fig_error printable spec revision qualname (no_skip P) m c) | None => lthrow EKeyError end)
    (match log_run_extractor (log_parse_fig n P) P m tbl hs c mp with Some run => lcatch run (log_fig_error printable spec revision qualname P m c) | None => lthrow EKeyError end)).
  { intros c mp. pose proof (kept_extractor _ _ P m tbl hs c mp IH) as K. destruct (log_run_extractor (log_parse_fig n (no_skip P)) _ _ _ _ _ _) as [l0|], (log_run_extractor (log_parse_fig n P) _ _ _ _ _ _) as [l|]; try destruct K; [|apply kept_same].
    apply kept_catch; [exact K | apply error_raises]. }
  cbn [p_fig_overrides no_skip]. destruct (lookup_fig _ _) as [c|].
  - destruct (can_apply c hs) as [mp|]; [apply X | apply kept_same].
  - destruct (select_extractor extractors hs) as [[c mp]|]; [apply X | apply kept_same].
Qed.
Lemma kept_tables P : forall tbls n, kept (log_tables (no_skip P) n tbls) (log_tables P n tbls).
Proof.
  induction tbls as [|t tbls IH]; intros n; cbn [Messages.log_tables]; [apply kept_same|]. destruct (classify t) as [| |title|m tbl].
  - apply kept_same.
  - apply IH.
  - apply kept_bind; [apply kept_same|]. intros _. apply kept_bind; [apply kept_same|]. intros _. apply IH.
  - apply kept_bind; [apply kept_figure|]. intros _. apply IH.
Qed.
(** The messages, and what is done between them, are the same with the option. *)
Theorem C97_messages P doc acts : log_doc (no_skip P) doc = (Ok tt, acts) -> log_doc P doc = (Ok tt, acts).
Proof.
  unfold Messages.log_doc. destruct (log_tables (no_skip P) 0 (figures doc) false) as [[r f'] t] eqn:E. intros [= -> ->]. rewrite (kept_tables _ _ _ _ _ _ _ E). reflexivity.
Qed.
End Messages.

(** ** Runs *)

Section Told.
Variable version : str.
Variable read : str -> source.
Variable printable : N -> bool.
Variable qualname : ecls -> str.
Variable show : path -> str.
Variable printed : failure -> str.
Local Notation json_messages := (RunLog.json_messages printable qualname show).
Local Notation process_log := (RunLog.process_log version read printable qualname show).
Local Notation loop_log := (RunLog.loop_log version read printable qualname show printed).
Local Notation runs_log := (RunLog.runs_log version read printable qualname show printed).

Lemma skip_json_messages ignore q s b w rs m : json_stage version (mkArgs false ignore) b w s = (rs, m, Finished) ->
  json_messages (mkArgs true ignore) q s = json_messages (mkArgs false ignore) q s.
Proof.
  unfold json_stage, RunLog.json_messages. destruct (open_doc s) as [e|[[root key] rev]]; [discriminate|]. cbn [a_skip a_ignore]. rewrite unskipped.
  pose proof (log_doc_same printable key rev qualname (no_skip (get_parser true key rev)) root) as S. rewrite S. clear S.
  destruct (Messages.log_doc printable key rev qualname (no_skip _) root) as [[[]|x|] acts] eqn:E; cbn [fst snd].
  - rewrite (C97_messages _ _ _ _ _ _ _ E). reflexivity.
  - destruct (write_events _ _ _ _ _ _) as [[? ?] [?|]]; discriminate.
  - destruct (write_events _ _ _ _ _ _) as [[? ?] [?|]]; discriminate.
Qed.
Lemma skip_finished ignore s : r_end (parse_spec version (mkArgs false ignore) false None (Html s)) = Finished ->
  exists rs m, json_stage version (mkArgs false ignore) false None s = (rs, m, Finished).
Proof. unfold parse_spec. destruct (json_stage _ _ _ _ _) as [[rs m] e]. cbn [r_end]. intros ->. eauto. Qed.
Lemma skip_finished_docx ignore s : r_end (parse_spec version (mkArgs false ignore) false None (Docx 0 [] false s)) = Finished ->
  exists rs m, json_stage version (mkArgs false ignore) false None s = (rs, m, Finished).
Proof. unfold parse_spec. destruct (json_stage _ _ _ _ _) as [[rs m] e]. cbn [r_end]. intros ->. eauto. Qed.
Lemma skip_process_log ignore out d p w m gs : process_log (mkArgs false ignore) out d p w m Finished gs -> process_log (mkArgs true ignore) out d p w m Finished gs.
Proof.
  intros P. remember Finished as e eqn:EE. destruct P as [dir name src r m NS ES ER F|dir name w S C|dir name w src r m S C ES ER F]; [| discriminate EE |].
  - rewrite ER in EE. pose proof (C97_input version ignore false None _ EE) as X. destruct (skip_finished _ _ EE) as (rs & m' & J).
    rewrite ER in F. rewrite ER. rewrite <- X in F. rewrite <- X. rewrite <- (skip_json_messages _ _ _ _ _ _ _ J). eapply pl_html; eauto.
  - rewrite ER in EE. pose proof (C97_input version ignore false None _ EE) as X. destruct (skip_finished_docx _ _ EE) as (rs & m' & J).
    rewrite ER in F. rewrite ER. rewrite <- X in F. rewrite <- X. rewrite <- (skip_json_messages _ _ _ _ _ _ _ J). eapply pl_docx; eauto.
Qed.
Lemma skip_loop_log ignore validate verbose out d ins w es : loop_log (mkArgs false ignore) validate verbose out d ins w 0 es -> loop_log (mkArgs true ignore) validate verbose out d ins w 0 es.
Proof.
  intros L. remember 0 as st eqn:ES. induction L as [d|d p ins N|d p ins w m e gs A P W|d p ins w m e gs w' st es A P W _ IH]; try discriminate ES; [constructor|].
  assert (e = Finished) as -> by (unfold well in W; destruct e; [reflexivity | discriminate W]).
  eapply ll_next; [exact A | apply skip_process_log; exact P | exact W | exact (IH ES)].
Qed.
(** A run with status 0 without the option writes the same with it, logs the same messages and
    shows the same. *)
Theorem C97_told k verbose d w es : runs_log (failing k) verbose d w 0 es -> runs_log (skipping k) verbose d w 0 es.
Proof.
  unfold RunLog.runs_log, failing, skipping. cbn [k_skip k_ignore k_validate k_out k_cwd k_inputs].
  destruct (forallb _ _); [|intros (_ & X & _); discriminate X]. destruct (match k_ignore k with Some t => arg_lintcode t | None => Some [] end); [|intros (_ & X & _); discriminate X].
  destruct (k_inputs k) as [|p ins]; [intros (_ & X & _); discriminate X|]. apply skip_loop_log.
Qed.
End Told.

(** Non-vacuity: the run of C82. *)
Example C97_sample_told printable qualname show printed verbose : exists es,
  RunLog.runs_log dk_version dk_read printable qualname show printed (failing dk_cmd) verbose dk_disk dk_w 0 es
  /\ RunLog.runs_log dk_version dk_read printable qualname show printed (skipping dk_cmd) verbose dk_disk dk_w 0 es.
Proof.
  destruct (proj1 (C89_same dk_version dk_read printable qualname show printed (failing dk_cmd) verbose dk_disk dk_w 0) (proj1 C82_ex)) as (es & R).
  exists es. split; [exact R|]. exact (C97_told dk_version dk_read printable qualname show printed dk_cmd verbose dk_disk dk_w es R).
Qed.
Print Assumptions C97_messages.
Print Assumptions C97_told.
Print Assumptions C97_sample_told.
