(** C88: every figure that fails is named in the log. *)
From Coq Require Import NArith ZArith List Bool String.
From Verif Require Import PyStr PyStrFacts Xml Json Lint RowIter Helpers Extract Document SpecLog SpecTable SpecDoc SpecRun
  DocProofs Messages SpecMsg MsgProofs MsgFlow Prop_Table Prop_Doc.
Import ListNotations.
Local Open Scope string_scope.
Local Open Scope list_scope.
Local Open Scope N_scope.

Section Log.
Variable printable : N -> bool.
Variables spec revision : str.
Variable qualname : ecls -> str.
Let log := log_doc printable spec revision qualname.

(** Logging changes nothing: without its messages, a run does what Document.v says. *)
Theorem C88_same P doc r acts : log P doc = (r, acts) -> parse_doc P doc = (r, done acts).
Proof. intros E. pose proof (log_doc_same printable spec revision qualname P doc) as H. fold log in H. rewrite E in H. exact H. Qed.

Lemma log_cases P doc r acts : tame P -> log P doc = (r, acts) ->
  match r with Ok _ => fine P acts | Exn e => stopped P (figures doc) e acts | OutOfFuel => False end.
Proof.
  intros TM E. assert (NF : r <> OutOfFuel).
  { intros ->. apply (C37_terminates P doc TM). rewrite (C88_same _ _ _ _ E). reflexivity. }
  unfold log, log_doc in E. destruct (log_tables _ _ _ _ _ _ _ _) as [[r0 f] t] eqn:E0. injection E as -> ->.
  pose proof (tables_told printable spec revision qualname P TM _ _ _ _ _ _ E0) as K. destruct r; try exact K. congruence.
Qed.

(** The messages are reports of troubles, one for each entry about a failed figure or a figure
    without an id, in the order of the entries.  A report about a failed figure names it,
    records the exception, and names the figures around it from the inside out. *)
Theorem C88_reports P doc r acts : tame P -> log P doc = (r, acts) ->
  exists ts ls, all_reports ts (said acts) /\ those trouble_code (lints_of (done acts)) ls
    /\ Forall2 entry_of ts ls /\ Forall (nested P) ts.
Proof.
  intros TM E. assert (F : fine P acts).
  { pose proof (log_cases P doc r acts TM E) as K. destruct r as [a|e|]; [exact K | | contradiction].
    destruct K as [(K & _)|(x & m & tbl & ts & row & m0 & ms & _ & _ & T & N & C & _)]; [exact K|].
    exists (ts ++ [Failure row m0 e ms]). split; [exact T|]. apply Forall_app. split; [exact N|]. repeat constructor. exact C. }
  destruct F as (ts & (gs & A & B & C) & N). exists ts, (entries (done acts)). rewrite B, app_nil_r.
  split; [exact A|]. split; [apply entries_those|]. split; [exact C | exact N].
Qed.

(** If processing the document ends with an exception, the last report says so and leads to the
    figure of the document it happened in -- unless there is a table without rows, or a figure
    for which the document's own extractor does not recognise the columns. *)
Theorem C88_abort P doc e acts : tame P -> log P doc = (Exn e, acts) ->
  (exists t, In t (figures doc) /\ (rowless t \/ exists m tbl, identified t m tbl /\ unrecognised P m tbl))
  \/ exists t m tbl ts row m0 around ls,
       In t (figures doc) /\ identified t m tbl /\ all_reports (ts ++ [Failure row m0 e around]) (said acts)
       /\ those trouble_code (lints_of (done acts)) ls /\ Forall2 entry_of (ts ++ [Failure row m0 e around]) ls
       /\ Forall (nested P) (ts ++ [Failure row m0 e around]) /\ outermost m0 around = m.
Proof.
  intros TM E. destruct (log_cases P doc _ acts TM E) as [(_ & x & I1 & I2)|(x & m & tbl & ts & row & m0 & ms & I1 & I2 & (gs & A & B & F) & N & C & O)].
  - left. exists x. auto.
  - right. exists x, m, tbl, ts, row, m0, ms, (entries (done acts)). rewrite B, app_nil_r. split; [exact I1|]. split; [exact I2|]. split; [exact A|].
    split; [apply entries_those|]. split; [exact F|]. split; [|exact O]. apply Forall_app. split; [exact N|]. repeat constructor. exact C.
Qed.

(** No message without trouble. *)
Theorem C88_silent P doc r acts : tame P -> log P doc = (r, acts) ->
  (forall l, In l (lints_of (done acts)) -> ~ trouble_code l) -> said acts = [].
Proof.
  intros TM E H. destruct (C88_reports P doc r acts TM E) as (ts & ls & A & T & F & _).
  assert (ls = []) as ->.
  { clear -T H. induction T as [|a l k Ha T IH|a l k Ha T IH]; [reflexivity | |].
    - destruct (H a (or_introl eq_refl) Ha).
    - apply IH. intros x I. apply H. right. exact I. }
  inversion F; subst. inversion A; subst. reflexivity.
Qed.
End Log.

(** The description in a message says which figure is meant; a literal, which string. *)
Theorem C88_which d m m' : describes d m -> describes d m' -> m = m'.
Proof. apply describes_det. Qed.
Theorem C88_which_title d s s' : literal d s -> literal d s' -> s = s'.
Proof. intros A B. apply (literal_det _ _ _ _ [] [] A B). reflexivity. Qed.

(** ** Examples *)

(** A figure in a row of figure 5 fails, without --skip-figure-on-error. *)
Definition mx_doc : elem :=
  d_doc [doc_good; doc_noid; d_fig "Figure 5: It's" [d_row [d_cell "7:0"; d_nest "Outer (OUT): o." [d_sub; d_sub_bad]]]; doc_noid].
Definition mx_log (P : parser) (doc : elem) : res unit * list act := log_doc (fun _ => true) [] [] (fun _ => utf8 "X") P doc.
Definition mx_texts (P : parser) (doc : elem) : list (str * str) :=
  map (fun g => (g_level g, g_text g)) (said (snd (mx_log P doc))).
Example messages_sample : mx_texts (no_skip sample_parser) mx_doc =
  [(utf8 "U_ERROR", utf8 "failed extracting title from figure header 'Figure: N'");
   (utf8 "ERROR", utf8 "failed to parse row");
   (utf8 "U_ERROR", utf8 "failed parsing figure {'fig_id': '5_0', 'parent_fig_id': '5'}");
   (utf8 "ERROR", utf8 "exception when parsing figure");
   (utf8 "U_ERROR", utf8 "  in {'title': ""Figure 5: It's"", 'fig_id': '5'}")].
Proof. vm_compute. reflexivity. Qed.
Example messages_end : fst (mx_log (no_skip sample_parser) mx_doc) = Exn EXPath /\ tame (no_skip sample_parser).
Proof. split; [vm_compute; reflexivity | intros ? ? ? ? []]. Qed.
(** With it, the report is the same, and the last figure is reported as well. *)
Example messages_skip : mx_texts sample_parser mx_doc =
  mx_texts (no_skip sample_parser) mx_doc
  ++ [(utf8 "U_ERROR", utf8 "failed extracting title from figure header 'Figure: N'")].
Proof. vm_compute. reflexivity. Qed.
(** What is in a message can be read back: apostrophes, quotes, controls. *)
Example literal_sample :
  literal (utf8 "'a\\\'""\x0b\n'") (utf8 "a\'""" ++ [11; 10]) /\ repr_str (fun _ => true) (utf8 "a\'""" ++ [11; 10]) = utf8 "'a\\\'""\x0b\n'".
Proof.
  assert (E : repr_str (fun _ => true) (utf8 "a\'""" ++ [11; 10]) = utf8 "'a\\\'""\x0b\n'") by (vm_compute; reflexivity).
  split; [|exact E]. rewrite <- E. apply repr_str_ok. repeat constructor.
Qed.

(** The program ends by asking the user to look for the figures in the log; but there are
    documents that cannot be processed for which there is no message. *)
Theorem C88_told_refuted :
  (exists t, rowless t /\ fst (mx_log sample_parser (d_doc [t])) = Exn EXPath /\ said (snd (mx_log sample_parser (d_doc [t]))) = [])
  /\ (exists t m tbl, identified t m tbl /\ fst (mx_log kv_parser (d_doc [t])) = Exn ERuntime
        /\ said (snd (mx_log kv_parser (d_doc [t]))) = []).
Proof.
  split.
  - exists (d_table []). split; [|split; vm_compute; reflexivity].
    pose proof (classify_spec (d_table [])) as H. vm_compute in H. exact H.
  - exists (d_fig "Figure 41: C" [d_cells ["3"; "x"]]). do 2 eexists. split; [|split; vm_compute; reflexivity].
    pose proof (classify_spec (d_fig "Figure 41: C" [d_cells ["3"; "x"]])) as H. vm_compute in H. exact H.
Qed.

Print Assumptions C88_same.
Print Assumptions C88_reports.
Print Assumptions C88_abort.
Print Assumptions C88_silent.
Print Assumptions C88_which.
Print Assumptions C88_which_title.
Print Assumptions C88_told_refuted.
