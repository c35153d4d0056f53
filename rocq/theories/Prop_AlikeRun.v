(** Property C93 for the files of a run: HTML files that differ only in formatting give the same
    outputs. *)
From Coq Require Import NArith ZArith List Bool String Lia.
From Verif Require Import PyStr PyStrFacts Xml Json JsonText Lint Extract Document Output Schema Cli Docx Render Css Disk.
From Verif Require Import SpecElem SpecXml SpecDisk SpecAlike SpecAlikeRun SpecResaved Prop_Cli DiskProofs Prop_Disk Prop_Alike XmlProofs Prop_Xml Prop_End Prop_DiskEx Prop_Resaved.
Import ListNotations.
Local Open Scope string_scope.
Local Open Scope list_scope.
Local Open Scope N_scope.

Section Run.
Variable version : str.
Variable read : str -> source.
Hypothesis RX : reads_xml read.
Local Notation convert := (Disk.convert version).
Local Notation process := (Disk.process version read).
Local Notation loop := (Disk.loop version read).
Local Notation runs := (Disk.runs version read).

Definition near (c c' : option content) : Prop :=
  like c c' \/ exists s s', c = Some (Text s) /\ c' = Some (Text s') /\ sources_alike (read s) (read s').
Lemma near_after w d d' q : near (d q) (d' q) -> near (disk_after w d q) (disk_after w d' q).
Proof.
  intros L. destruct (last_write w q) as [N|(a & s & b & -> & N)]; [rewrite !dafter_other by exact N; exact L | rewrite !dafter_last by exact N; left; left; reflexivity].
Qed.
Lemma near_spec args c c' : near c c' -> parse_spec version args false None (Html (source_of read c)) = parse_spec version args false None (Html (source_of read c')).
Proof.
  intros [L|(s & s' & -> & -> & A)]; [rewrite (like_source read _ _ L); reflexivity|]. apply C93_same. constructor. exact A.
Qed.
Lemma near_convert out stem c c' w b : near c c' -> convert out stem c w b -> convert out stem c' w b.
Proof.
  intros [L|(s & s' & -> & -> & _)]; [apply like_convert; exact L|]. intros C. inversion C; subst. apply cv_no_docx. exact Logic.I.
Qed.
Lemma near_process args out d d' p w m e : In (path_suffix (snd p)) [utf8 ".html"; utf8 ".docx"] -> near (d p) (d' p) -> process args out d p w m e -> process args out d' p w m e.
Proof.
  intros A E P. inversion P as [dir name r m' NS ER F|dir name w' S C|dir name w' r m' S C ER F]; subst.
  - pose proof (near_spec args _ _ (near_after [((out, json_name name), [])] _ _ _ E)) as X. rewrite X in F. rewrite X. eapply pr_html; eauto.
  - apply pr_raised; [exact S|]. exact (near_convert _ _ _ _ _ _ E C).
  - apply accepted_name in A as (stem & [N|N]); [|exfalso; exact (not_docx (dir, name) stem N S)].
    destruct (html_name_of (dir, name) stem N) as [HN _]. cbn [snd] in HN.
    assert (X : disk_after (w' ++ [((out, json_name (html_name name)), [])]) d (out, html_name name) = disk_after (w' ++ [((out, json_name (html_name name)), [])]) d' (out, html_name name)).
    { apply dafter_written. rewrite map_app. apply in_or_app. left. rewrite HN. apply (convert_written version out stem (d (dir, name))). rewrite <- (drop_named name stem _ N). exact C. }
    rewrite X in F. rewrite X. eapply pr_docx; eauto. exact (near_convert _ _ _ _ _ _ E C).
Qed.
Lemma near_loop args validate out d ins w st : loop args validate out d ins w st -> forall d', (forall p, In p ins -> near (d p) (d' p)) -> loop args validate out d' ins w st.
Proof.
  induction 1 as [d|d p ins N|d p ins w m e A P W|d p ins w m e w' st A P W _ IH]; intros d' E.
  - constructor.
  - constructor. exact N.
  - eapply lp_fails; eauto. apply (near_process _ _ d); auto. apply E. left. reflexivity.
  - eapply lp_next; eauto. + apply (near_process _ _ d); auto. apply E. left. reflexivity.
    + apply IH. intros q I. apply near_after. apply E. right. exact I.
Qed.
Lemma inputs_near ins d d' : inputs_like ins d d' -> forall p, In p ins -> near (d p) (d' p).
Proof.
  intros H p I. destruct (H p I) as [E|[(s & s' & E & E' & r & r' & X & X' & T & A)|R]]; [left; left; exact E| |left; right; exact R].
  right. exists s, s'. split; [exact E|]. split; [exact E'|]. rewrite (RX _ _ X), (RX _ _ X'). constructor; assumption.
Qed.
(** What a run writes, and its status, are the same for inputs that differ only in formatting. *)
Theorem C93_run k d d' : inputs_like (k_inputs k) d d' -> forall w st, runs k d w st -> runs k d' w st.
Proof.
  intros H w st. pose proof (inputs_near _ _ _ H) as E. clear H. unfold Disk.runs.
  replace (forallb (found d') (k_inputs k)) with (forallb (found d) (k_inputs k)).
  2: { clear - E. induction (k_inputs k) as [|p ins IH]; [reflexivity|]. cbn [forallb]. f_equal; [|apply IH; intros q I; apply E; right; exact I].
       unfold found. destruct (E p (or_introl eq_refl)) as [[->|(a & b & -> & -> & _)]|(a & b & -> & -> & _)]; reflexivity. }
  destruct (forallb _ _); [|auto]. destruct (match k_ignore k with Some t => arg_lintcode t | None => Some [] end); [|auto].
  destruct (k_inputs k) as [|p ins]; [auto|]. intros L. apply (near_loop _ _ _ _ _ _ _ L). exact E.
Qed.
End Run.

(** Documents that are the same without the attributes that are not looked at are alike. *)
Lemma bare_alike : forall e e', bare e = bare e' -> alike e e'.
Proof.
  fix IH 1. intros [t a x ks] [t' a' x' ks']. cbn [bare]. intros E.
  pose proof (f_equal e_tag E) as ET. pose proof (f_equal e_attrs E) as EA. pose proof (f_equal e_text E) as EX. pose proof (f_equal e_kids E) as EK.
  clear E. cbn [e_tag e_attrs e_text e_kids] in *. subst t' x'. apply al_node.
  - intros n o I. rewrite (bare_values a n o I), EA. symmetry. apply (bare_values a' n o I).
  - clear EA. revert ks' EK. induction ks as [|[k u] ks IK]; intros [|[k' u'] ks'] EK; cbn [map fst snd] in EK; try discriminate EK; [constructor|].
    pose proof (f_equal (fun l => fst (hd (k, u) l)) EK) as E1. pose proof (f_equal (fun l => snd (hd (k, u) l)) EK) as E2. pose proof (f_equal (@tl _) EK) as E3.
    clear EK. cbn [hd tl fst snd] in *. constructor; [split; [exact (IH k k' E1) | exact E2] | exact (IK ks' E3)].
Qed.
(** The runs of C82 with an identifier given to the body of the HTML file. *)
Fixpoint mark (s : str) : str :=
  match s with
  | [] => []
  | c :: r => if startswith (utf8 "<body>") s then utf8 "<body id='top'>" ++ skipn 6 s else c :: mark r
  end.
Definition marked_disk : disk := fun q => if same q dk_b then Some (Text (mark en_file)) else dk_disk q.
Example C93_sample_run : Disk.runs dk_version dk_read dk_cmd marked_disk dk_w 0 /\ mark en_file <> en_file.
Proof.
  split.
  - refine (C93_run dk_version dk_read dk_reads dk_cmd dk_disk marked_disk _ dk_w 0 (proj1 C82_ex)). intros p _. destruct (same p dk_b) eqn:S; [|left; unfold marked_disk; rewrite S; reflexivity].
    right. left. exists en_file, (mark en_file). split; [|split; [unfold marked_disk; rewrite S; reflexivity|]].
    + assert (p = dk_b) as ->; [|vm_compute; reflexivity]. unfold same in S. apply andb_true_iff in S as [A B]. apply seqb_eq in A, B. destruct p. cbn [fst snd] in *. subst. reflexivity.
    + assert (H : match read_xml en_file, read_xml (mark en_file) with
                  | Some r, Some r' => e_tag r = utf8 "html" /\ bare r = bare r'
                  | _, _ => False end) by (vm_compute; split; reflexivity).
      destruct (read_xml en_file) as [r|] eqn:E; [|destruct H]. destruct (read_xml (mark en_file)) as [r'|] eqn:E'; [|destruct H].
      destruct H as [T B].
      exists r, r'. split; [apply read_xml_iff; exact E|]. split; [apply read_xml_iff; exact E'|]. split; [exact T | apply bare_alike; exact B].
  - intros E. apply (f_equal (@List.length _)) in E. vm_compute in E. discriminate E.
Qed.
Print Assumptions C93_run.
Print Assumptions C93_sample_run.
