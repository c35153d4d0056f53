(** Property C96, for whole command lines: also what the user is told is the same. *)
From Coq Require Import NArith ZArith List Bool String Lia.
From Verif Require Import PyStr PyStrFacts Xml Json JsonText Lint Extract Document Output Schema Cli Docx Render Css Disk Messages RunLog Args Program.
From Verif Require Import SpecDisk SpecResaved SpecArgs QueryProofs ResavedProofs Prop_Cli DiskProofs Prop_Disk Prop_DiskEx Prop_Resaved.
From Verif Require Prop_Args.
Import ListNotations.
Local Open Scope string_scope.
Local Open Scope list_scope.
Local Open Scope N_scope.

Section Told.
Variable version : str.
Variable read : str -> source.
Variable printable : N -> bool.
Variable qualname : ecls -> str.
Variable show : path -> str.
Variable printed : failure -> str.
Local Notation process_log := (RunLog.process_log version read printable qualname show).
Local Notation loop_log := (RunLog.loop_log version read printable qualname show printed).
Local Notation runs_log := (RunLog.runs_log version read printable qualname show printed).

Lemma rs_process_log args out d d' p w m e gs : In (path_suffix (snd p)) [utf8 ".html"; utf8 ".docx"] -> like (d p) (d' p) ->
  process_log args out d p w m e gs -> process_log args out d' p w m e gs.
Proof.
  intros A E P. inversion P as [dir name src r m' NS ES ER F|dir name w' S C|dir name w' src r m' S C ES ER F]; subst.
  - eapply pl_html; [exact NS | exact (like_source read _ _ (like_after [((out, json_name name), [])] _ _ _ E)) | reflexivity | exact F].
  - apply pl_raised; [exact S|]. exact (like_convert _ _ _ _ _ _ _ E C).
  - apply accepted_name in A as (stem & [N|N]); [|exfalso; exact (not_docx (dir, name) stem N S)].
    destruct (html_name_of (dir, name) stem N) as [HN _]. cbn [snd] in HN.
    eapply pl_docx; [exact S | exact (like_convert _ _ _ _ _ _ _ E C) | | reflexivity | exact F]. f_equal.
    apply dafter_written. rewrite map_app. apply in_or_app. left. rewrite HN. apply (convert_written version out stem (d (dir, name))). rewrite <- (drop_named name stem _ N). exact C.
Qed.
Lemma rs_loop_log args validate verbose out d ins w st es : loop_log args validate verbose out d ins w st es ->
  forall d', (forall p, In p ins -> like (d p) (d' p)) -> loop_log args validate verbose out d' ins w st es.
Proof.
  induction 1 as [d|d p ins N|d p ins w m e gs A P W|d p ins w m e gs w' st es A P W _ IH]; intros d' E.
  - constructor.
  - constructor. exact N.
  - eapply ll_fails; eauto. apply (rs_process_log _ _ d); auto. apply E. left. reflexivity.
  - eapply ll_next; eauto. + apply (rs_process_log _ _ d); auto. apply E. left. reflexivity.
    + apply IH. intros q I. apply like_after. apply E. right. exact I.
Qed.
Lemma rs_runs_log k verbose d d' w st es : (forall p, In p (k_inputs k) -> like (d p) (d' p)) -> runs_log k verbose d w st es -> runs_log k verbose d' w st es.
Proof.
  unfold RunLog.runs_log. intros E.
  replace (forallb (found d') (k_inputs k)) with (forallb (found d) (k_inputs k)).
  2: { clear - E. induction (k_inputs k) as [|p ins IH]; [reflexivity|]. cbn [forallb]. f_equal; [|apply IH; intros q I; apply E; right; exact I].
       unfold found. destruct (E p (or_introl eq_refl)) as [->|(a & b & -> & -> & _)]; reflexivity. }
  destruct (forallb _ _); [|auto]. destruct (match k_ignore k with Some t => arg_lintcode t | None => Some [] end); [|auto].
  destruct (k_inputs k) as [|p ins]; [auto|]. intros L. apply (rs_loop_log _ _ _ _ _ _ _ _ _ L). exact E.
Qed.
Lemma resaved_back ins d d' : resaved_inputs ins d d' -> resaved_inputs ins d' d.
Proof.
  intros R p I. destruct (R p I) as [->|(a & b & -> & -> & S)]; [left; reflexivity|]. right. exists b, a. split; [reflexivity|]. split; [reflexivity|].
  apply sym_package; [exact resaved_sym | exact S].
Qed.
(** The same messages in the same order, and the same output on the standard error. *)
Theorem C96_told k verbose d d' : resaved_inputs (k_inputs k) d d' -> forall w st es, runs_log k verbose d w st es <-> runs_log k verbose d' w st es.
Proof. intros R w st es. split; apply rs_runs_log; [exact R | exact (resaved_back _ _ _ R)]. Qed.

Variable at_path : str -> thing.
Variable can_make : str -> bool.
Variable file_at : str -> path.
Variable dir_at : str -> str.
Variable cwd : str.
Local Notation program := (Program.program version read printable qualname show printed at_path can_make file_at dir_at cwd).
(** The whole program, for every list of words: if the inputs named in it are the same but for
    docx files saved again, it makes the same directories, writes the same files with the same
    texts, says the same, and ends with the same status. *)
Theorem C96_program argv d d' : (forall pre ins post, line argv pre ins post -> resaved_inputs (map file_at ins) d d') ->
  forall made w st es, program argv d made w st es <-> program argv d' made w st es.
Proof.
  assert (ONE : forall d d', (forall pre ins post, line argv pre ins post -> resaved_inputs (map file_at ins) d d') ->
    forall made w st es, program argv d made w st es -> program argv d' made w st es).
  { clear d d'. intros d d' H made w st es P. destruct P as [st made E|k v made w st es E R]; [apply pg_exits; exact E|].
    eapply pg_starts; [exact E|]. apply (C96_told k v d d'); [|exact R].
    destruct (proj1 (Prop_Args.C90_starts at_path can_make file_at dir_at cwd argv k v) (ex_intro _ made E)) as (pre & ins & post & L & _ & (_ & _ & _ & _ & _ & _ & KI)).
    rewrite KI. exact (H _ _ _ L). }
  intros H made w st es. split; apply ONE; [exact H|]. intros pre ins post L. apply resaved_back. exact (H _ _ _ L).
Qed.
End Told.

(** The file of C96_sample meets the condition, for every command line. *)
Example C96_sample_inputs : forall ins, resaved_inputs ins dk_disk edited_disk.
Proof.
  intros ins p _. destruct (same p dk_a) eqn:S; [|left; unfold edited_disk; rewrite S; reflexivity]. right. exists dk_pack, edited_pack.
  split; [unfold dk_disk; rewrite S; reflexivity|]. split; [unfold edited_disk; rewrite S; reflexivity|].
  split; [apply C96_edited|]. split; [exact Logic.I|]. split; [apply C96_edited|]. intros s.
  assert (J : joined (below dk_header) (utf8 "Demo Spec, Revision 1.0")) by exact (joined_all (below dk_header)).
  assert (J' : joined (below (edited dk_header)) (utf8 "Demo Spec, Revision 1.0")) by exact (joined_all (below (edited dk_header))).
  split; intros X; [rewrite (joined_one _ _ _ X J); exact J' | rewrite (joined_one _ _ _ X J'); exact J].
Qed.

Print Assumptions C96_told.
Print Assumptions C96_program.
Print Assumptions C96_sample_inputs.
