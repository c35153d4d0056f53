(** The text and the formats of a paragraph. *)
From Coq Require Import NArith ZArith List Bool String Lia.
From Verif Require Import PyStr PyStrFacts Docx SpecQuery SpecFmt SpecRuns QueryProofs Prop_Fmt.
Import ListNotations.
Local Open Scope string_scope.
Local Open Scope list_scope.
Local Open Scope N_scope.

Lemma dmap_iff {A B} (f : A -> dres B) l : forall r, dmap f l = DOk r <-> Forall2 (fun a b => f a = DOk b) l r.
Proof.
  induction l as [|a l IH]; intros r; cbn [dmap]; [split; [intros [= <-]; constructor | inversion 1; reflexivity]|]. split.
  - destruct (f a) as [b| |] eqn:F; cbn [dbind]; try discriminate. destruct (dmap f l) as [bs| |]; cbn [dbind]; try discriminate.
    intros [= <-]. constructor; [exact F | apply IH; reflexivity].
  - inversion 1 as [|? b ? bs F FS]; subst. rewrite F. cbn [dbind]. rewrite (proj2 (IH bs) FS). reflexivity.
Qed.
Lemma select_runs_iff ks : forall rs, select_runs ks = DOk rs <-> runs ks rs.
Proof.
  induction ks as [|k ks IH]; intros rs; cbn [select_runs]; [split; [intros [= <-]; constructor | inversion 1; reflexivity]|].
  destruct (is_tag "w:r" k) eqn:R.
  - apply is_tag_iff in R. split.
    + destruct (select_runs ks) as [l| |]; cbn [dbind]; try discriminate. intros [= <-]. apply rn_run; [exact R | apply IH; reflexivity].
    + inversion 1 as [|? ? l T RN|? ? ? ? T ? RN|? ? ? T ? ? RN]; subst.
      * rewrite (proj2 (IH l) RN). reflexivity.
      * rewrite R in T. destruct T; discriminate.
      * contradiction.
  - apply is_tag_false in R. destruct (is_tag "w:hyperlink" k || is_tag "w:fldSimple" k) eqn:L.
    + apply orb_true_iff in L. rewrite !is_tag_iff in L. split.
      * unfold elem_first_req. destruct (elem_first ["w:r"] k) as [x|] eqn:E; cbn [dbind]; [|discriminate].
        destruct (select_runs ks) as [l| |]; cbn [dbind]; try discriminate. intros [= <-].
        apply rn_link; [exact L | apply first_child_iff; exact E | apply IH; reflexivity].
      * inversion 1 as [|? ? l T RN|? ? x l T FC RN|? ? ? T T1 T2 RN]; subst; [contradiction| |destruct L; contradiction].
        unfold elem_first_req. rewrite (proj2 (first_child_iff _ _ _) FC). cbn [dbind]. rewrite (proj2 (IH l) RN). reflexivity.
    + apply orb_false_iff in L as [L1 L2]. rewrite is_tag_false in L1, L2. rewrite IH. split; [intros RN; apply rn_other; assumption|].
      inversion 1 as [|? ? l T RN|? ? x l T FC RN|? ? ? T T1 T2 RN]; subst; [contradiction | destruct T; contradiction | exact RN].
Qed.
Lemma run_spans_text st r l : run_spans st r = DOk l -> (l = [] /\ forall x, ~ run_text r x) \/ exists s, l = [s] /\ run_text r (sp_text s) /\ extract_r_rpr (dx_styles st) r = DOk (sp_style s).
Proof.
  unfold run_spans. destruct (elem_first ["w:t"] r) as [t|] eqn:E.
  - apply first_child_iff in E. destruct (w_text t) as [x|] eqn:T.
    + destruct (extract_r_rpr _ r) as [p| |]; cbn [dbind]; try discriminate. intros [= <-]. right. eexists. split; [reflexivity|]. split; [exists t; auto | reflexivity].
    + intros [= <-]. left. split; [reflexivity|]. intros x (t' & FC & TX). rewrite (first_with_det _ _ _ _ FC E) in TX. congruence.
  - intros [= <-]. left. split; [reflexivity|]. intros x (t' & FC & TX). apply first_child_iff in FC. congruence.
Qed.

(** The spans of a paragraph: the texts of its runs with their formats. *)
Lemma runs_read_iff d rs : forall sps, (exists ls, dmap (run_spans d) rs = DOk ls /\ List.concat ls = sps) <-> runs_read (dx_styles d) rs sps.
Proof.
  induction rs as [|r rs IH]; intros sps; cbn [dmap].
  - split; [intros (ls & [= <-] & <-); constructor | inversion 1; exists []; auto].
  - split.
    + intros (ls & H & <-). destruct (run_spans d r) as [l| |] eqn:R; cbn [dbind] in H; try discriminate.
      destruct (dmap (run_spans d) rs) as [bs| |] eqn:D; cbn [dbind] in H; try discriminate. injection H as <-. cbn [List.concat].
      assert (RD : runs_read (dx_styles d) rs (List.concat bs)) by (apply IH; eauto).
      destruct (run_spans_text _ _ _ R) as [(-> & N)|([st x] & -> & T & F)]; cbn [app].
      * apply rs_none; assumption.
      * apply rs_text; [exact T | apply C51_run; exact F | exact RD].
    + assert (TX : forall x, run_text r x -> forall st, extract_r_rpr (dx_styles d) r = DOk st -> run_spans d r = DOk [mkSpan st x]).
      { intros x (t & FC & E) st F. unfold run_spans. apply first_child_iff in FC. rewrite FC, E, F. reflexivity. }
      inversion 1 as [|? ? ? N RD|? ? x o sps' T F RD]; subst; apply IH in RD as (bs & D & C).
      * assert (run_spans d r = DOk []) as ->.
        { unfold run_spans. destruct (elem_first ["w:t"] r) as [t|] eqn:E; [|reflexivity]. apply first_child_iff in E. destruct (w_text t) as [x|] eqn:W; [|reflexivity].
          exfalso. apply (N x). exists t. auto. }
        cbn [dbind]. rewrite D. cbn [dbind]. exists ([] :: bs). auto.
      * apply C51_run in F. rewrite (TX x T o F). cbn [dbind]. rewrite D. cbn [dbind]. exists ([mkSpan o x] :: bs). cbn [List.concat app]. rewrite C. auto.
Qed.
Lemma par_spans_iff d p sps : parse_spans d p = DOk sps <-> par_spans d p sps.
Proof.
  unfold parse_spans, par_spans. split.
  - destruct (select_runs (w_kids p)) as [rs| |] eqn:R; cbn [dbind]; try discriminate.
    destruct (dmap (run_spans d) rs) as [ls| |] eqn:D; cbn [dbind]; try discriminate. intros [= <-]. exists rs. split; [apply select_runs_iff; exact R|].
    apply runs_read_iff. eauto.
  - intros (rs & R & RD). apply select_runs_iff in R. rewrite R. cbn [dbind]. apply runs_read_iff in RD as (ls & D & <-). rewrite D. reflexivity.
Qed.
