(** Property C97 for command lines: the word "-s" or "--skip-figure-on-error" put before a command
    line makes no difference if the program succeeds without it. *)
From Coq Require Import NArith List Bool String.
From Verif Require Import PyStr PyStrFacts Lint Extract Document Output Cli Disk Messages RunLog Args Program.
From Verif Require Import SpecArgs Prop_DiskEx Prop_RunLog Prop_Args Prop_Skip Prop_SkipLog.
Import ListNotations.
Local Open Scope string_scope.
Local Open Scope list_scope.
Local Open Scope N_scope.

Definition skip_word (s : str) : Prop := s = utf8 "-s" \/ s = utf8 "--skip-figure-on-error".

Lemma skip_scan s argv : skip_word s -> words argv = None /\ scan (s :: argv) = scan argv \/ scan (s :: argv) = (TSkip :: fst (scan argv), snd (scan argv)).
Proof.
  intros W. assert (E : exists b, parse_optional s = Some (WOpt OSkip b false None)) by (destruct W as [->| ->]; eexists; vm_compute; reflexivity).
  assert (D : seqb s (utf8 "--") = false) by (destruct W as [->| ->]; vm_compute; reflexivity). destruct E as [b E].
  unfold scan. cbn [words]. rewrite D, E. destruct (words argv) as [ws|]; [right; reflexivity | left; split; reflexivity].
Qed.

Section Line.
Variable version : str.
Variable read : str -> source.
Variable printable : N -> bool.
Variable qualname : ecls -> str.
Variable show : path -> str.
Variable printed : failure -> str.
Variable at_path : str -> thing.
Variable can_make : str -> bool.
Variable file_at : str -> path.
Variable dir_at : str -> str.
Variable cwd : str.
Local Notation take_all := (Args.take_all at_path can_make file_at dir_at cwd).
Local Notation start := (Args.start at_path can_make file_at dir_at cwd).
Local Notation program := (Program.program version read printable qualname show printed at_path can_make file_at dir_at cwd).

Definition with_option (r : started) : started := match r with Exits st made => Exits st made | Starts k v made => Starts (skipping k) v made end.
Lemma skip_take l ok : forall n made, take_all l ok (mkNs true (n_output n) (n_validate n) (n_verbose n) (n_ignore n) (n_inputs n)) made = with_option (take_all l ok n made).
Proof.
  induction l as [|t l IH]; intros n made; cbn [Args.take_all n_skip n_output n_validate n_verbose n_ignore n_inputs].
  - destruct ok; reflexivity.
  - destruct t.
    + reflexivity.
    + rewrite <- IH. reflexivity.
    + destruct (arg_output _ _ _ _); [rewrite <- IH; reflexivity | reflexivity].
    + rewrite <- IH. reflexivity.
    + rewrite <- IH. reflexivity.
    + destruct (arg_lintcode s); [rewrite <- IH; reflexivity | reflexivity].
    + destruct (sequence _); [rewrite <- IH; reflexivity | reflexivity].
Qed.
Lemma skip_start s argv : skip_word s -> start (s :: argv) = with_option (start argv).
Proof.
  intros W. unfold Args.start. destruct (skip_scan s argv W) as [[E ->]| ->].
  - unfold scan. rewrite E. reflexivity.
  - destruct (scan argv) as [l ok]. cbn [fst snd Args.take_all]. apply skip_take.
Qed.
Lemma skip_inside a b ok : forall n made, take_all (a ++ TSkip :: b) ok n made = with_option (take_all (a ++ b) ok n made).
Proof.
  induction a as [|t a IH]; intros n made; [apply skip_take|]. cbn [app Args.take_all]. destruct t; try reflexivity; try apply IH.
  - destruct (arg_output _ _ _ _); [apply IH | reflexivity].
  - destruct (arg_lintcode s); [apply IH | reflexivity].
  - destruct (sequence _); [apply IH | reflexivity].
Qed.
Lemma skip_runs argv argv' d made w es : start argv' = with_option (start argv) -> program argv d made w 0 es -> program argv' d made w 0 es.
Proof.
  intros E P. remember 0 as st eqn:ES. destruct P as [st made X|k v made w st es X R]; rewrite X in E; cbn [with_option] in E.
  - apply pg_exits. exact E.
  - eapply pg_starts; [exact E|]. subst st. destruct (k_skip k) eqn:SK.
    + replace (skipping k) with k; [exact R|]. destruct k. cbn in SK. rewrite SK. reflexivity.
    + apply C97_told. replace (failing k) with k; [exact R|]. destruct k. cbn in SK. rewrite SK. reflexivity.
Qed.
(** The same for the option at any place, in any of the ways to write it: two command lines that
    say the same, but that the second has the option somewhere. *)
Theorem C97_anywhere argv argv' pre ins post pre' post' a b d made w es :
  line argv pre ins post -> line argv' pre' ins post' ->
  items pre ins post = a ++ b -> items pre' ins post' = a ++ Setting Skip :: b ->
  program argv d made w 0 es -> program argv' d made w 0 es.
Proof.
  intros L L' I I'. apply skip_runs. unfold Args.start. rewrite (line_items _ _ _ _ L), (line_items _ _ _ _ L'), I, I', !map_app. cbn [map item_t].
  apply skip_inside.
Qed.
(** For every command line: if the program ends with the status 0, then with the option it makes
    the same directories, writes the same files, logs and shows the same, and its status is 0. *)
Theorem C97_program s argv d made w es : skip_word s -> program argv d made w 0 es -> program (s :: argv) d made w 0 es.
Proof.
  intros W. apply skip_runs. apply skip_start. exact W.
Qed.
End Line.

(** Non-vacuity: the run of C82 as a command line. *)
Definition sl_at (s : str) : thing := if seqb s (utf8 "out") then ADir else AFile.
Definition sl_argv : list str := [utf8 "-o"; utf8 "out"; snd dk_a; snd dk_b].
Definition sl_program printable qualname show printed := Program.program dk_version dk_read printable qualname show printed sl_at (fun _ => false) (fun s => (fst dk_a, s)) (fun s => s) (utf8 "in").
Example C97_sample_program printable qualname show printed : exists es,
  sl_program printable qualname show printed sl_argv dk_disk [] dk_w 0 es
  /\ sl_program printable qualname show printed (utf8 "-s" :: sl_argv) dk_disk [] dk_w 0 es.
Proof.
  destruct (C97_sample_told printable qualname show printed false) as (es & R & _). exists es.
  assert (P : sl_program printable qualname show printed sl_argv dk_disk [] dk_w 0 es).
  { eapply pg_starts; [|exact R]. vm_compute. reflexivity. }
  split; [exact P|]. unfold sl_program in *. refine (C97_program _ _ _ _ _ _ _ _ _ _ _ _ _ _ _ _ _ (or_introl eq_refl) P).
Qed.
Example C97_sample_anywhere :
  line sl_argv [Output (utf8 "out")] [snd dk_a; snd dk_b] [] /\ line (sl_argv ++ [utf8 "-vs"]) [Output (utf8 "out")] [snd dk_a; snd dk_b] [Verbose true; Skip]
  /\ line (sl_argv ++ [utf8 "-v"]) [Output (utf8 "out")] [snd dk_a; snd dk_b] [Verbose true].
Proof.
  assert (OP : forall v c r, v = c :: r -> c <> 45 -> operand v) by (intros v c r -> N; left; intros (r' & E); apply N; exact (f_equal (hd 0) E)).
  assert (A : options [utf8 "-o"; utf8 "out"] [Output (utf8 "out")]).
  { change (options ([45 :: [] ++ [111]; utf8 "out"] ++ []) (([] ++ [Output (utf8 "out")]) ++ [])). apply op_cons; [|constructor].
    apply (oi_dir [] [] (utf8 "out")); [constructor|]. eapply OP; [vm_compute; reflexivity | discriminate]. }
  assert (F : Forall operand [snd dk_a; snd dk_b]) by (constructor; [eapply OP; [vm_compute; reflexivity | discriminate]|]; constructor; [eapply OP; [vm_compute; reflexivity | discriminate] | constructor]).
  split; [|split].
  - apply (line_plain [utf8 "-o"; utf8 "out"] _ [snd dk_a; snd dk_b] [] []); [exact A | discriminate | exact F | constructor].
  - apply (line_plain [utf8 "-o"; utf8 "out"] _ [snd dk_a; snd dk_b] [utf8 "-vs"]); [exact A | discriminate | exact F|].
    change (options ([45 :: [118; 115]] ++ []) ([Verbose true; Skip] ++ [])). apply op_cons; [|constructor]. apply oi_letters; [discriminate | repeat constructor].
  - apply (line_plain [utf8 "-o"; utf8 "out"] _ [snd dk_a; snd dk_b] [utf8 "-v"]); [exact A | discriminate | exact F|].
    change (options ([45 :: [118]] ++ []) ([Verbose true] ++ [])). apply op_cons; [|constructor]. apply oi_letters; [discriminate | repeat constructor].
Qed.
Print Assumptions C97_program.
Print Assumptions C97_anywhere.
Print Assumptions C97_sample_anywhere.
Print Assumptions C97_sample_program.
