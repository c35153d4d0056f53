(** The files of a run: lemmas. *)
From Coq Require Import NArith ZArith List Bool String Lia.
From Verif Require Import PyStr PyStrFacts Xml Json JsonText Lint Extract Document Output Schema Cli Docx Render Css Disk.
From Verif Require Import SpecText SpecFmt SpecQuery SpecCli SpecOutput SpecStage2 SpecJson SpecDoc SpecOut SpecDisk.
From Verif Require Import Prop_Cli.
Import ListNotations.
Local Open Scope string_scope.
Local Open Scope list_scope.
Local Open Scope N_scope.

(** ** Writing files *)
Lemma same_iff p q : same p q = true <-> p = q.
Proof.
  unfold same. destruct p as [a b], q as [a' b']; cbn [fst snd]. rewrite andb_true_iff, !seqb_eq. split; [intros [-> ->]; reflexivity | intros [= -> ->]; auto].
Qed.
Lemma same_refl p : same p p = true.
Proof. apply same_iff. reflexivity. Qed.
Lemma path_dec (p q : path) : {p = q} + {p <> q}.
Proof. destruct (same p q) eqn:E; [left; apply same_iff; exact E | right; intros X; apply same_iff in X; congruence]. Qed.
Lemma dafter_app a b d : disk_after (a ++ b) d = disk_after b (disk_after a d).
Proof. unfold disk_after. apply fold_left_app. Qed.
Lemma dafter_other w : forall d q, ~ In q (map fst w) -> disk_after w d q = d q.
Proof.
  induction w as [|[p s] w IH]; intros d q N; [reflexivity|]. cbn [map fst In] in N. change (disk_after ((p, s) :: w) d) with (disk_after w (put (p, s) d)).
  rewrite IH by tauto. unfold put. cbn [fst]. destruct (same q p) eqn:E; [|reflexivity]. apply same_iff in E. subst. tauto.
Qed.
Lemma dafter_last a q s b d : ~ In q (map fst b) -> disk_after (a ++ (q, s) :: b) d q = Some (Text s).
Proof.
  intros N. rewrite dafter_app. change (disk_after ((q, s) :: b) (disk_after a d)) with (disk_after b (put (q, s) (disk_after a d))). rewrite dafter_other by exact N.
  unfold put. cbn [fst snd]. rewrite same_refl. reflexivity.
Qed.
Lemma last_write (w : effects) q : ~ In q (map fst w) \/ exists a s b, w = a ++ (q, s) :: b /\ ~ In q (map fst b).
Proof.
  induction w as [|[p s] w IH]; [left; intros []|]. destruct IH as [N|(a & t & b & -> & N)].
  - destruct (path_dec p q) as [->|X]; [right; exists [], s, w; auto|]. left. cbn [map fst In]. intros [E|I]; auto.
  - right. exists ((p, s) :: a), t, b. auto.
Qed.
Lemma dafter_cases w d q : disk_after w d q = d q \/ exists s, In (q, s) w /\ disk_after w d q = Some (Text s).
Proof.
  destruct (last_write w q) as [N|(a & s & b & -> & N)]; [left; apply dafter_other; exact N|]. right. exists s. split; [apply in_elt | apply dafter_last; exact N].
Qed.
Lemma dafter_agree w d d' q : d q = d' q -> disk_after w d q = disk_after w d' q.
Proof. intros E. destruct (last_write w q) as [N|(a & s & b & -> & N)]; [rewrite !dafter_other; auto | rewrite !dafter_last; auto]. Qed.

(** ** Names *)
Lemma suffix_docx name : path_suffix name = utf8 ".docx" <-> exists stem, named name stem (utf8 "docx").
Proof.
  split.
  - intros E. destruct (named_suffix name _ E) as (stem & ext & X & N); [discriminate|]. injection X as <-. exists stem. exact N.
  - intros (stem & N). rewrite (suffix_named _ _ _ N). reflexivity.
Qed.
Lemma suffix_html name : path_suffix name = utf8 ".html" <-> exists stem, named name stem (utf8 "html").
Proof.
  split.
  - intros E. destruct (named_suffix name _ E) as (stem & ext & X & N); [discriminate|]. injection X as <-. exists stem. exact N.
  - intros (stem & N). rewrite (suffix_named _ _ _ N). reflexivity.
Qed.
Lemma accepted_name (p : path) : In (path_suffix (snd p)) [utf8 ".html"; utf8 ".docx"] <-> exists stem, has_stem p stem.
Proof.
  unfold has_stem, docx_file, html_file. cbn [In]. split.
  - intros [E|[E|[]]]; symmetry in E; [apply suffix_html in E | apply suffix_docx in E]; destruct E as [stem N]; exists stem; auto.
  - intros (stem & [N|N]); [right; left | left]; symmetry; [apply suffix_docx | apply suffix_html]; eauto.
Qed.
Lemma not_docx (p : path) stem : html_file p stem -> path_suffix (snd p) <> utf8 ".docx".
Proof. intros N E. rewrite (proj2 (suffix_html _) (ex_intro _ _ N)) in E. discriminate. Qed.
Lemma has_stem_one p s s' : has_stem p s -> has_stem p s' -> s = s'.
Proof. intros [N|N] [N'|N']; destruct (named_unique _ _ _ _ _ N N') as [E _]; exact E. Qed.
Lemma has_stem_nil p s : has_stem p s -> s <> [].
Proof. intros [N|N]; apply N. Qed.
Lemma named_ext stem ext : stem <> [] -> ext <> [] -> ~ In 46 ext -> named (stem ++ 46 :: ext) stem ext.
Proof. intros A B C. repeat split; assumption. Qed.
Ltac ext := let Y := fresh "Y" in apply named_ext; [assumption | discriminate | intros Y; repeat (destruct Y as [Y|Y]; [discriminate Y|]); exact Y].
(** The name of an output tells its stem and its kind. *)
Lemma output_named out p q : output_of out p q -> fst q = out /\ exists stem, has_stem p stem
  /\ (named (snd q) stem (utf8 "json") \/ (docx_file p stem /\ (named (snd q) stem (utf8 "html") \/ named (snd q) stem (utf8 "css")))).
Proof.
  intros (stem & [[H ->]|[H [->| ->]]]); cbn [fst snd]; (split; [reflexivity|]); exists stem.
  - split; [exact H|]. left. pose proof (has_stem_nil _ _ H). ext.
  - split; [left; exact H|]. right. split; [exact H|]. left. assert (stem <> []) by apply H. ext.
  - split; [left; exact H|]. right. split; [exact H|]. right. assert (stem <> []) by apply H. ext.
Qed.

Section Run.
Variable version : str.
Variable read : str -> source.
Local Notation convert := (convert version).
Local Notation process := (process version read).
Local Notation loop := (loop version read).
Local Notation runs := (runs version read).

(** ** What is written *)
Lemma convert_paths out stem c w b : convert out stem c w b ->
  Forall (fun e => fst e = (out, stem ++ utf8 ".css") \/ fst e = (out, stem ++ utf8 ".html")) w.
Proof. intros H. inversion H; subst; repeat apply Forall_cons; try apply Forall_nil; cbn [fst]; auto. Qed.
Lemma html_name_of p stem : docx_file p stem -> html_name (snd p) = stem ++ utf8 ".html" /\ json_name (html_name (snd p)) = stem ++ utf8 ".json".
Proof.
  intros N. unfold html_name, json_name. rewrite (drop_named _ _ _ N). split; [reflexivity|]. f_equal.
  apply (drop_named _ _ (utf8 "html")). assert (stem <> []) by apply N. ext.
Qed.
Lemma json_name_of p stem : html_file p stem -> json_name (snd p) = stem ++ utf8 ".json".
Proof. intros N. unfold json_name. rewrite (drop_named _ _ _ N). reflexivity. Qed.
Lemma process_paths args out d p w m e : In (path_suffix (snd p)) [utf8 ".html"; utf8 ".docx"] -> process args out d p w m e ->
  Forall (fun x => output_of out p (fst x)) w.
Proof.
  intros A P. apply accepted_name in A as (stem & A).
  inversion P as [dir name r m' NS E F|dir name w' S C|dir name w' r m' S C E F]; subst; cbn [fst snd] in *.
  - destruct A as [N|N]; [exfalso; apply NS; apply suffix_docx; exists stem; exact N|]. pose proof (json_name_of (dir, name) stem N) as JN. cbn [snd] in JN. rewrite JN.
    assert (O : output_of out (dir, name) (out, stem ++ utf8 ".json")) by (exists stem; left; split; [right; exact N | reflexivity]). repeat constructor; exact O.
  - destruct A as [N|N]; [|exfalso; exact (not_docx (dir, name) stem N S)]. eapply Forall_impl; [|exact (convert_paths _ _ _ _ _ C)].
    cbn beta. rewrite (drop_named name stem _ N). intros x X. exists stem. right. split; [exact N|]. tauto.
  - destruct A as [N|N]; [|exfalso; exact (not_docx (dir, name) stem N S)]. destruct (html_name_of (dir, name) stem N) as [_ E2]. cbn [snd] in E2. rewrite E2.
    assert (O : output_of out (dir, name) (out, stem ++ utf8 ".json")) by (exists stem; left; split; [left; exact N | reflexivity]).
    apply Forall_app. split; [|repeat constructor; exact O]. eapply Forall_impl; [|exact (convert_paths _ _ _ _ _ C)].
    cbn beta. rewrite (drop_named name stem _ N). intros x X. exists stem. right. split; [exact N|]. tauto.
Qed.
Lemma loop_paths args validate out d ins w st : loop args validate out d ins w st -> Forall (fun x => exists p, In p ins /\ output_of out p (fst x)) w.
Proof.
  induction 1 as [d|d p ins N|d p ins w m e A P W|d p ins w m e w' st A P W _ IH]; try constructor.
  - eapply Forall_impl; [|exact (process_paths _ _ _ _ _ _ _ A P)]. cbn beta. intros x O. exists p. split; [left; reflexivity | exact O].
  - apply Forall_app. split.
    + eapply Forall_impl; [|exact (process_paths _ _ _ _ _ _ _ A P)]. cbn beta. intros x O. exists p. split; [left; reflexivity | exact O].
    + eapply Forall_impl; [|exact IH]. intros x (q & I & O). exists q. split; [right; exact I | exact O].
Qed.
Lemma runs_paths k d w st : runs k d w st -> Forall (fun x => exists p, In p (k_inputs k) /\ output_of (k_out k) p (fst x)) w.
Proof.
  unfold Disk.runs. destruct (forallb _ _); [|intros [-> _]; constructor]. destruct (match k_ignore k with Some t => arg_lintcode t | None => Some [] end); [|intros [-> _]; constructor].
  destruct (k_inputs k) as [|p ins]; [intros [-> _]; constructor|]. apply loop_paths.
Qed.

(** ** One input after the other *)
Inductive steps (args : pargs) (validate : bool) (out : str) : disk -> list path -> effects -> Prop :=
| sp_none d : steps args validate out d [] []
| sp_next d p ins w m w' : In (path_suffix (snd p)) [utf8 ".html"; utf8 ".docx"] -> process args out d p w (Some m) Finished ->
    well validate (Some m) Finished = true -> steps args validate out (disk_after w d) ins w' -> steps args validate out d (p :: ins) (w ++ w').
Lemma well_inv validate m e : well validate m e = true -> exists m', m = Some m' /\ e = Finished.
Proof. unfold well. destruct e; [|discriminate]. destruct m as [m|]; [|discriminate]. eauto. Qed.
Lemma loop_split args validate out d ins w st : loop args validate out d ins w st ->
  exists good rest w1 w2, ins = good ++ rest /\ w = w1 ++ w2 /\ steps args validate out d good w1 /\ (st = 0 \/ st = 1)
    /\ (st = 0 -> rest = []) /\ (rest = [] -> st = 0) /\ loop args validate out (disk_after w1 d) rest w2 st
    /\ forall x, In x w2 -> exists p r, rest = p :: r /\ output_of out p (fst x).
Proof.
  induction 1 as [d|d p ins N|d p ins w m e A P W|d p ins w m e w' st A P W L IH].
  - exists [], [], [], []. repeat split; auto; try constructor. intros x [].
  - exists [], (p :: ins), [], []. split; [reflexivity|]. split; [reflexivity|]. split; [constructor|]. split; [auto|]. split; [discriminate|]. split; [discriminate|].
    split; [constructor; exact N | intros x []].
  - exists [], (p :: ins), [], w. split; [reflexivity|]. split; [reflexivity|]. split; [constructor|]. split; [auto|]. split; [discriminate|]. split; [discriminate|].
    split; [exact (lp_fails _ _ _ _ _ _ _ _ _ _ _ A P W)|].
    intros x I. exists p, ins. split; [reflexivity|]. pose proof (process_paths _ _ _ _ _ _ _ A P) as F. rewrite Forall_forall in F. exact (F x I).
  - destruct IH as (good & rest & w1 & w2 & -> & -> & S & ST & R & R' & L' & O). destruct (well_inv _ _ _ W) as (m' & -> & ->).
    exists (p :: good), rest, (w ++ w1), w2. split; [reflexivity|]. split; [apply app_assoc|]. split; [eapply sp_next; eassumption|].
    split; [exact ST|]. split; [exact R|]. split; [exact R'|]. split; [rewrite dafter_app; exact L' | exact O].
Qed.
Lemma steps_loop args validate out d ins w : steps args validate out d ins w -> loop args validate out d ins w 0.
Proof. induction 1; [constructor|]. eapply lp_next; eassumption. Qed.
Lemma loop_steps args validate out d ins w : loop args validate out d ins w 0 -> steps args validate out d ins w.
Proof.
  intros L. remember 0 as st eqn:E. induction L as [d|d p ins N|d p ins w m e A P W|d p ins w m e w' st A P W L IH]; try discriminate; [constructor|].
  destruct (well_inv _ _ _ W) as (m' & -> & ->). eapply sp_next; eauto.
Qed.
Lemma steps_at args validate out A p B : forall d w, steps args validate out d (A ++ p :: B) w ->
  exists w1 w2 w3 m, w = w1 ++ w2 ++ w3 /\ steps args validate out d A w1 /\ In (path_suffix (snd p)) [utf8 ".html"; utf8 ".docx"]
    /\ process args out (disk_after w1 d) p w2 (Some m) Finished /\ well validate (Some m) Finished = true /\ steps args validate out (disk_after (w1 ++ w2) d) B w3.
Proof.
  induction A as [|a A IH]; intros d w S; cbn [app] in S; inversion S as [|d' p' ins' w' m w'' AC P W S']; subst.
  - exists [], w', w'', m. split; [reflexivity|]. split; [constructor|]. cbn [app]. auto.
  - destruct (IH _ _ S') as (w1 & w2 & w3 & m2 & -> & S1 & AP & P2 & W2 & S3). exists (w' ++ w1), w2, w3, m2. split; [rewrite <- app_assoc; reflexivity|].
    split; [eapply sp_next; eassumption|]. split; [exact AP|]. rewrite dafter_app. split; [exact P2|]. split; [exact W2|]. rewrite <- app_assoc, dafter_app. exact S3.
Qed.
Lemma steps_paths args validate out d ins w : steps args validate out d ins w -> forall x, In x w -> exists p, In p ins /\ output_of out p (fst x).
Proof. intros S x I. apply steps_loop, loop_paths in S. rewrite Forall_forall in S. exact (S x I). Qed.
End Run.
