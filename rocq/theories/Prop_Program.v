(** C91: what the program does for a command line. *)
From Coq Require Import NArith ZArith List Bool String Lia.
From Verif Require Import PyStr PyStrFacts Xml Json JsonText Lint Extract Document Output Schema Cli Docx Disk Messages RunLog Args Program.
From Verif Require Import SpecText SpecCli SpecDisk SpecMsg SpecRunLog SpecArgs Prop_Cli DiskProofs Prop_Disk Prop_Works Prop_Bound.
From Verif Require Prop_RunLog ArgsProofs ArgsLine Prop_Args.
Import ListNotations.
Local Open Scope string_scope.
Local Open Scope list_scope.
Local Open Scope N_scope.

Section Program.
Variable version : str.
Variable read : str -> source.
Variable printable : N -> bool.
Variable qualname : ecls -> str.
Variable show : path -> str.
Variable printed : failure -> str.
Variable at_path : str -> thing.
Variable can_make : str -> bool.
Variable file_at : str -> path.
Variable dir_at : str -> str.
Variable cwd : str.
Local Notation program := (Program.program version read printable qualname show printed at_path can_make file_at dir_at cwd).
Local Notation stops := (ends at_path can_make (fun t => exists cs, ignores (Some t) cs)).
Local Notation command_of := (means file_at dir_at cwd).
Local Notation told_run := (SpecRunLog.told_run show version read printed).
(** The disk has the files that are at the paths. *)
Definition present (d : disk) : Prop := forall s, at_path s = AFile -> d (file_at s) <> None.

(** The program ends, whatever the words and the files are, with one of these statuses. *)
Theorem C91_total argv d : exists made w st es, program argv d made w st es /\ In st [0; 1; 2].
Proof.
  destruct (start at_path can_make file_at dir_at cwd argv) as [st made|k v made] eqn:E.
  - exists made, [], st, []. split; [apply pg_exits; exact E|].
    destruct (scan argv) as [acts ok] eqn:SC. unfold start in E. rewrite SC in E. clear SC. revert E.
    generalize ns0, (@nil str). induction acts as [|t l IH]; intros n m; cbn [take_all].
    + destruct ok; [discriminate|]. intros [= <- _]. cbn [In]. tauto.
    + destruct t; try (apply IH).
      * intros [= <- _]. cbn [In]. tauto.
      * destruct (arg_output _ _ _ _); [apply IH | intros [= <- _]; cbn [In]; tauto].
      * destruct (arg_lintcode _); [apply IH | intros [= <- _]; cbn [In]; tauto].
      * destruct (sequence _); [apply IH | intros [= <- _]; cbn [In]; tauto].
  - destruct (C85_total version read k d) as (w & st & R & B).
    destruct (proj1 (Prop_RunLog.C89_same version read printable qualname show printed k v d w st) R) as (es & L).
    exists made, w, st, es. split; [eapply pg_starts; [exact E | exact L]|]. cbn [In]. destruct B as [ -> | [ -> | -> ] ]; tauto.
Qed.

(** Either the arguments end the program, with nothing written and nothing logged; or the line has a
    meaning, and its inputs are processed with the settings it gives (C89): then the status is not
    2. *)
Theorem C91_run argv d made w st es : present d -> program argv d made w st es ->
  (w = [] /\ es = [] /\ forall k v, ~ exists m, start at_path can_make file_at dir_at cwd argv = Starts k v m)
  \/ exists pre ins post k verbose ig,
       line argv pre ins post /\ (forall x s, In x (items pre ins post) -> ~ stops x s)
       /\ command_of (pre ++ post) ins k verbose /\ ignores (k_ignore k) ig
       /\ told_run (mkArgs (k_skip k) ig) (k_validate k) verbose (k_out k) d (map file_at ins) w st es
       /\ makes at_path (items pre ins post) made /\ In st [0; 1].
Proof.
  intros PR P. destruct P as [st made E|k v made w st es E R].
  - left. split; [reflexivity|]. split; [reflexivity|]. intros k v (m & H). congruence.
  - right. destruct (proj1 (Prop_Args.C90_starts at_path can_make file_at dir_at cwd argv k v) (ex_intro _ made E)) as (pre & ins & post & L & N & M).
    destruct (Prop_Args.C90_checked at_path can_make file_at dir_at cwd d argv k v made PR E) as (NE & FO & (cs & IG)).
    pose proof (Prop_Args.C90_made at_path can_make file_at dir_at cwd argv k v made E pre ins post L) as MK.
    exists pre, ins, post, k, v. destruct (Prop_RunLog.C89_told version read printable qualname show printed k v d w st es R) as [(_ & _ & _ & [X|[(p & I & X)|X]])|(ig & IG' & T)].
    + congruence.
    + rewrite Forall_forall in FO. destruct (FO p I X).
    + destruct (X cs IG).
    + exists ig. split; [exact L|]. split; [exact N|]. split; [exact M|]. split; [exact IG'|].
      destruct M as (_ & _ & _ & _ & _ & _ & KI). rewrite KI in T. split; [exact T|]. split; [exact MK|].
      clear - T. induction T; cbn [In] in *; tauto.
Qed.
(** Status 2 is for a line that is not a command line: nothing is written or logged. *)
Theorem C91_usage argv d made w es : present d -> program argv d made w 2 es ->
  w = [] /\ es = [] /\ ~ exists pre ins post, line argv pre ins post.
Proof.
  intros PR P. destruct (C91_run _ _ _ _ _ _ PR P) as [(-> & -> & _)|(pre & ins & post & k & v & ig & _ & _ & _ & _ & _ & _ & I)]; [|cbn [In] in I; intuition discriminate].
  split; [reflexivity|]. split; [reflexivity|]. inversion P as [st0 m E|k v m w0 st0 es0 E R]; subst.
  - exact (Prop_Args.C90_usage at_path can_make file_at dir_at cwd argv made E).
  - exfalso. destruct (Prop_Args.C90_checked at_path can_make file_at dir_at cwd d argv k v made PR E) as (NE & FO & (cs & IG)).
    destruct (Prop_RunLog.C89_told version read printable qualname show printed k v d [] 2 [] R) as [(_ & _ & _ & [X|[(p & I & X)|X]])|(ig & _ & T)].
    + congruence.
    + rewrite Forall_forall in FO. exact (FO p I X).
    + exact (X cs IG).
    + inversion T.
Qed.

(** The output directory of the line: the one named last, or the working directory. *)
Definition out_dir (l : list setting) (out : str) : Prop :=
  exists o, last_says says_output None l o /\ out = match o with Some s => dir_at s | None => cwd end.
(** Whatever the words are and wherever it is interrupted, the program changes no file but the log and
    the outputs of the inputs of the line in its output directory. *)
Theorem C91_frame argv d made w st es d' q : program argv d made w st es ->
  (forall k, k_cwd k = cwd -> interrupted k w d d') -> d' q <> d q ->
  q = (cwd, utf8 "spex.log")
  \/ exists pre ins post out s, line argv pre ins post /\ out_dir (pre ++ post) out /\ In s ins /\ output_of out (file_at s) q.
Proof.
  intros P H N. destruct P as [st made E|k v made w st es E R].
  - left. specialize (H (mkCommand false None false cwd cwd []) eq_refl q). destruct (path_dec q (cwd, utf8 "spex.log")) as [EQ|NQ]; [exact EQ|].
    exfalso. destruct (H NQ) as (w1 & w2 & EW & X). destruct w1, w2; try discriminate. destruct X as [X|(s & r & w3 & X & _)]; [exact (N X) | discriminate].
  - destruct (proj1 (Prop_Args.C90_starts at_path can_make file_at dir_at cwd argv k v) (ex_intro _ made E)) as (pre & ins & post & L & _ & (_ & _ & _ & _ & KO & KC & KI)).
    destruct (C82_frame version read k d w st d' q) as [X|(p & I & O)].
    + apply (Prop_RunLog.C89_same version read printable qualname show printed k v). exists es. exact R.
    + apply H. exact KC.
    + exact N.
    + left. rewrite X. unfold log_path. rewrite KC. reflexivity.
    + right. rewrite KI in I. apply in_map_iff in I as (s & <- & I). exists pre, ins, post, (k_out k), s. repeat (split; [assumption|]). exact O.
Qed.
(** A line with a meaning whose inputs can be processed: the program ends with status 0. *)
Theorem C91_success argv d made w st es pre ins post k verbose : reads_xml read -> program argv d made w st es ->
  line argv pre ins post -> (forall x s, In x (items pre ins post) -> ~ stops x s) -> command_of (pre ++ post) ins k verbose ->
  (forall s, In s ins -> input_works version k d (file_at s)) -> st = 0.
Proof.
  intros RX P L N M W. destruct (proj2 (Prop_Args.C90_starts at_path can_make file_at dir_at cwd argv k verbose)) as (m & E).
  { exists pre, ins, post. auto. }
  destruct P as [st made E'|k' v' made w st es E' R].
  - unfold Prop_Args.starting in E. congruence.
  - unfold Prop_Args.starting in E. rewrite E' in E. injection E as -> -> ->.
    assert (HI : k_inputs k <> []).
    { destruct M as (_ & _ & _ & _ & _ & _ & ->). assert (ins <> []) by (destruct L; assumption). destruct ins; [congruence | discriminate]. }
    assert (IG : exists ig, ignores (k_ignore k) ig).
    { destruct M as (_ & _ & _ & SI & _). destruct SI as [(l1 & s & l2 & EL & (t & -> & ->) & _)|(_ & ->)]; [|exists []; reflexivity].
      destruct (arg_lintcode t) as [cs|] eqn:AL; [exists cs; apply C61_codes; exact AL|]. exfalso. apply Prop_Args.codes_iff in AL.
      apply (N (Setting (Ignore t)) 1); [|apply ends_ignore; exact AL]. apply Prop_Args.settings_in. rewrite EL. apply in_elt. }
    destruct IG as (ig & IG).
    apply (C85_success version read k d w st ig RX); [|exact HI | exact IG |].
    + apply (Prop_RunLog.C89_same version read printable qualname show printed k verbose). exists es. exact R.
    + intros p I. destruct M as (_ & _ & _ & _ & _ & _ & KI). rewrite KI in I. apply in_map_iff in I as (s & <- & I). apply W. exact I.
Qed.
End Program.
Print Assumptions C91_total.
Print Assumptions C91_run.
Print Assumptions C91_usage.
Print Assumptions C91_frame.
Print Assumptions C91_success.

(** ** Examples *)

(** Files a.html and b.json, and no other path. *)
Definition pg_at (s : str) : thing := if smem s [utf8 "a.html"; utf8 "b.json"] then AFile else Nothing.
Definition pg_program (argv : list str) : list str -> effects -> N -> list entry -> Prop :=
  program (utf8 "1") (fun _ => Tree Prop_RunLog.rl_doc) (fun _ => true) (fun _ => utf8 "X") Prop_RunLog.rl_show (fun _ => [])
    pg_at (fun _ => true) (fun s => (utf8 "in", s)) (fun s => s) (utf8 "in") argv Prop_RunLog.rl_disk.
(** spex a.html b.json -so=out, in the example of Prop_RunLog.v: the directory is made, the first
    input is processed and the second one rejected. *)
Example C91_sample : exists es, es <> [] /\ present pg_at (fun s => (utf8 "in", s)) Prop_RunLog.rl_disk
  /\ pg_program [utf8 "a.html"; utf8 "b.json"; utf8 "-so=out"] [utf8 "out"] (Prop_RunLog.rl_w Prop_RunLog.rl_doc (mkArgs true [])) 1 es.
Proof.
  eexists. split; [|split]; [| intros s _; discriminate | eapply pg_starts; [vm_compute; reflexivity|]; apply (Prop_RunLog.rl_good Prop_RunLog.rl_doc true None []); [reflexivity | vm_compute; reflexivity]].
  discriminate.
Qed.
Example C91_sample_usage : pg_program [utf8 "a.html"; utf8 "-o"] [] [] 2 [] /\ pg_program [utf8 "a.html"; utf8 "-h"] [] [] 0 [].
Proof. split; apply pg_exits; vm_compute; reflexivity. Qed.
