(** C91: a command line that meets the conditions for success. *)
From Coq Require Import NArith List Bool String.
From Verif Require Import PyStr Cli Disk Args Program SpecCli SpecDisk SpecArgs Prop_DiskEx Prop_Works Prop_WorksEx Prop_Program.
From Verif Require Prop_Args.
Import ListNotations.
Local Open Scope string_scope.
Local Open Scope list_scope.
Local Open Scope N_scope.

(** spex -so out --lint-ignore=T1001 a.docx b.html, in a directory with these files *)
Definition px_at (s : str) : thing := if smem s [utf8 "a.docx"; utf8 "b.html"] then AFile else Nothing.
Definition px_argv : list str := [utf8 "-so"; utf8 "out"; utf8 "--lint-ignore=T1001"; utf8 "a.docx"; utf8 "b.html"].
Definition px_file (s : str) : path := (utf8 "in", s).
Example C91_ex : present px_at px_file dk_disk
  /\ exists pre ins post, line px_argv pre ins post
       /\ (forall x s, In x (items pre ins post) -> ~ ends px_at (fun _ => true) (fun t => exists cs, ignores (Some t) cs) x s)
       /\ means px_file (fun s => s) (utf8 "in") (pre ++ post) ins wk_cmd false
       /\ forall s, In s ins -> input_works dk_version wk_cmd dk_disk (px_file s).
Proof.
  split.
  - intros s H. unfold px_at in H. destruct (smem s _) eqn:M; [|discriminate H]. unfold smem in M. apply existsb_exists in M as (x & I & E).
    apply PyStrFacts.seqb_eq in E. subst x. destruct I as [<-|[<-|[]]]; vm_compute; discriminate.
  - assert (E : start px_at (fun _ => true) px_file (fun s => s) (utf8 "in") px_argv = Starts wk_cmd false [utf8 "out"]) by (vm_compute; reflexivity).
    destruct (proj1 (Prop_Args.C90_starts px_at (fun _ => true) px_file (fun s => s) (utf8 "in") px_argv wk_cmd false) (ex_intro _ _ E)) as (pre & ins & post & L & N & M).
    exists pre, ins, post. split; [exact L|]. split; [exact N|]. split; [exact M|].
    intros s I. destruct C85_ex as (_ & _ & _ & _ & _ & _ & W). apply W. destruct M as (_ & _ & _ & _ & _ & _ & ->). apply in_map. exact I.
Qed.
