(** Property C96: what is not read of a docx document changes nothing. *)
From Coq Require Import NArith ZArith List Bool String Lia.
From Verif Require Import PyStr PyStrFacts Xml Json Lint Extract Document Output Schema Cli Docx Render Css Disk.
From Verif Require Import SpecElem SpecDisk SpecResaved QueryProofs ResavedProofs Prop_Cli DiskProofs Prop_Disk Prop_List Prop_CssEx Prop_End Prop_DiskEx.
Import ListNotations.
Local Open Scope string_scope.
Local Open Scope list_scope.
Local Open Scope N_scope.

(** ** Documents *)

(** Documents of which the same is read give the same tables, or the same error. *)
Theorem C96_document d d' : resaved (dx_body d) (dx_body d') -> resaved (dx_styles d) (dx_styles d') -> dx_num d = dx_num d' ->
  parse_docx d = parse_docx d'.
Proof. intros B Y N. exact (rs_parse_docx d d' N Y B). Qed.
(** ... also the same numbering. *)
Theorem C96_numbering e e' : resaved e e' -> parse_numbering e = parse_numbering e'.
Proof. apply rs_numbering. Qed.

(** ** Files *)

Definition docs (x x' : docx * str) : Prop :=
  resaved (dx_body (fst x)) (dx_body (fst x')) /\ resaved (dx_styles (fst x)) (dx_styles (fst x')) /\ dx_num (fst x) = dx_num (fst x') /\ snd x = snd x'.
Lemma rs_open p p' : resaved_package p p' -> dr docs (open_docx p) (open_docx p').
Proof.
  intros (B & N & Y & H). unfold open_docx, extract, both in *.
  destruct (pk_document p) as [b|], (pk_document p') as [b'|]; try contradiction; cbn [dbind]; [|reflexivity].
  assert (EN : (dlet e <- match pk_numbering p with Some e => DOk e | None => DErr DKey end; parse_numbering e)
             = (dlet e <- match pk_numbering p' with Some e => DOk e | None => DErr DKey end; parse_numbering e)).
  { destruct (pk_numbering p) as [n|], (pk_numbering p') as [n'|]; try contradiction; cbn [dbind]; [apply rs_numbering; exact N | reflexivity]. }
  rewrite EN. apply dr_same. intros n _.
  destruct (pk_header p) as [h|], (pk_header p') as [h'|]; try contradiction; cbn [dbind]; [|reflexivity].
  destruct (pk_styles p) as [y|], (pk_styles p') as [y'|]; try contradiction; cbn [dbind]; [|reflexivity].
  rewrite (rs_styles_ok _ _ Y). apply dr_same. intros [] _. split; [exact B|]. split; [exact Y|]. split; [reflexivity|]. cbn [snd].
  apply (joined_one (below h')); [apply H|]; apply joined_all.
Qed.
Lemma rs_open_ok p p' d h : resaved_package p p' -> open_docx p = DOk (d, h) ->
  exists d', open_docx p' = DOk (d', h) /\ resaved (dx_body d) (dx_body d') /\ resaved (dx_styles d) (dx_styles d') /\ dx_num d = dx_num d'.
Proof.
  intros R O. pose proof (rs_open _ _ R) as X. rewrite O in X. destruct (open_docx p') as [[d' h']| |]; try contradiction.
  destruct X as (B & Y & N & E). cbn [fst snd] in *. subst h'. eauto.
Qed.
Lemma sym_package p p' : (forall e e', resaved e e' -> resaved e' e) -> resaved_package p p' -> resaved_package p' p.
Proof.
  intros S (B & N & Y & H). unfold resaved_package, both in *.
  destruct (pk_document p), (pk_document p'), (pk_numbering p), (pk_numbering p'), (pk_styles p), (pk_styles p'), (pk_header p), (pk_header p'); try contradiction;
    (split; [auto | split; [auto | split; [auto | try exact Logic.I; intros s; symmetry; apply H]]]).
Qed.
Lemma resaved_sym : forall e e', resaved e e' -> resaved e' e.
Proof.
  refine (rs_ind2 (fun e e' _ => resaved e' e) (fun t ks ks' _ => resaved_in t ks' ks) _ _ _ _ _ _).
  - intros i i' t a a' x x' ks ks' I SR X _ IH. constructor; [intros T; symmetry; auto | intros n o N; symmetry; apply SR; exact N | intros T; symmetry; auto | exact IH].
  - intros t. constructor.
  - intros t k k' ks ks' _ K _ IH. apply ri_same; assumption.
  - intros t k k' ks ks' U U' _ IH. apply ri_other; assumption.
  - intros t k ks ks' N U _ IH. apply ri_more; assumption.
  - intros t k ks ks' N U _ IH. apply ri_fewer; assumption.
Qed.

Section Run.
Variable version : str.
Variable read : str -> source.
Local Notation convert := (Disk.convert version).
Local Notation process := (Disk.process version read).
Local Notation loop := (Disk.loop version read).
Local Notation runs := (Disk.runs version read).

Lemma rs_convert out stem p p' w b : resaved_package p p' -> convert out stem (Some (Package p)) w b -> convert out stem (Some (Package p')) w b.
Proof.
  intros R C. inversion C as [c N|q N|q d h O N|q d h a t z us s ts c html css O A PT N RA W L|q d h us ts c html css O PD H W L]; subst.
  - contradiction.
  - apply cv_not_open. pose proof (rs_open _ _ R) as X. destruct (open_docx p), (open_docx p'); auto.
  - destruct (rs_open_ok _ _ _ _ R O) as (d' & O' & B & Y & NU). eapply cv_lost; [exact O'|]. rewrite <- (C96_document d d' B Y NU). exact N.
  - destruct (rs_open_ok _ _ _ _ R O) as (d' & O' & B & Y & NU). pose proof (rs_all d d' B) as TL. rewrite A in TL. unfold tables_like in TL.
    apply Forall2_app_inv_l in TL as (a' & r' & TA & TR & E). inversion TR as [|? t' ? z' [T TB] TZ]; subst.
    rewrite (rs_parse_tables d d' NU Y a a' TA) in PT. rewrite (rs_top d d' NU Y t t' s T TB) in N. rewrite NU in L.
    eapply cv_raised; eauto.
  - destruct (rs_open_ok _ _ _ _ R O) as (d' & O' & B & Y & NU). rewrite (C96_document d d' B Y NU) in PD. rewrite NU in L. eapply cv_done; eauto.
Qed.
(** What is in an input. *)
Definition like (c c' : option content) : Prop := c = c' \/ exists pk pk', c = Some (Package pk) /\ c' = Some (Package pk') /\ resaved_package pk pk'.
Lemma like_source c c' : like c c' -> source_of read c = source_of read c'.
Proof. intros [->|(p & p' & -> & -> & _)]; reflexivity. Qed.
Lemma like_after w d d' q : like (d q) (d' q) -> like (disk_after w d q) (disk_after w d' q).
Proof.
  intros L. destruct (last_write w q) as [N|(a & s & b & -> & N)]; [rewrite !dafter_other by exact N; exact L | rewrite !dafter_last by exact N; left; reflexivity].
Qed.
Lemma like_convert out stem c c' w b : like c c' -> convert out stem c w b -> convert out stem c' w b.
Proof. intros [->|(p & p' & -> & -> & R)]; [auto | apply rs_convert; exact R]. Qed.
Lemma rs_process args out d d' p w m e : In (path_suffix (snd p)) [utf8 ".html"; utf8 ".docx"] -> like (d p) (d' p) -> process args out d p w m e -> process args out d' p w m e.
Proof.
  intros A E P. inversion P as [dir name r m' NS ER F|dir name w' S C|dir name w' r m' S C ER F]; subst.
  - pose proof (like_source _ _ (like_after [((out, json_name name), [])] _ _ _ E)) as X. rewrite X in F. rewrite X. eapply pr_html; eauto.
  - apply pr_raised; [exact S|]. exact (like_convert _ _ _ _ _ _ E C).
  - apply accepted_name in A as (stem & [N|N]); [|exfalso; exact (not_docx (dir, name) stem N S)].
    destruct (html_name_of (dir, name) stem N) as [HN _]. cbn [snd] in HN.
    assert (X : disk_after (w' ++ [((out, json_name (html_name name)), [])]) d (out, html_name name) = disk_after (w' ++ [((out, json_name (html_name name)), [])]) d' (out, html_name name)).
    { apply dafter_written. rewrite map_app. apply in_or_app. left. rewrite HN. apply (convert_written version out stem (d (dir, name))). rewrite <- (drop_named name stem _ N). exact C. }
    rewrite X in F. rewrite X. eapply pr_docx; eauto. exact (like_convert _ _ _ _ _ _ E C).
Qed.
Lemma rs_loop args validate out d ins w st : loop args validate out d ins w st -> forall d', (forall p, In p ins -> like (d p) (d' p)) -> loop args validate out d' ins w st.
Proof.
  induction 1 as [d|d p ins N|d p ins w m e A P W|d p ins w m e w' st A P W _ IH]; intros d' E.
  - constructor.
  - constructor. exact N.
  - eapply lp_fails; eauto. apply (rs_process _ _ d); auto. apply E. left. reflexivity.
  - eapply lp_next; eauto. + apply (rs_process _ _ d); auto. apply E. left. reflexivity.
    + apply IH. intros q I. apply like_after. apply E. right. exact I.
Qed.
Lemma rs_runs k d d' w st : (forall p, In p (k_inputs k) -> like (d p) (d' p)) -> runs k d w st -> runs k d' w st.
Proof.
  unfold Disk.runs. intros E.
  replace (forallb (found d') (k_inputs k)) with (forallb (found d) (k_inputs k)).
  2: { clear - E. induction (k_inputs k) as [|p ins IH]; [reflexivity|]. cbn [forallb]. f_equal; [|apply IH; intros q I; apply E; right; exact I].
       unfold found. destruct (E p (or_introl eq_refl)) as [->|(a & b & -> & -> & _)]; reflexivity. }
  destruct (forallb _ _); [|auto]. destruct (match k_ignore k with Some t => arg_lintcode t | None => Some [] end); [|auto].
  destruct (k_inputs k) as [|p ins]; [auto|]. intros L. apply (rs_loop _ _ _ _ _ _ _ L). exact E.
Qed.
(** Runs on inputs of which the same is read write the same files, with the same texts, and have
    the same status. *)
Theorem C96_run k d d' : resaved_inputs (k_inputs k) d d' -> forall w st, runs k d w st <-> runs k d' w st.
Proof.
  intros R w st. split; apply rs_runs; intros p I; specialize (R p I); [exact R|].
  destruct R as [->|(a & b & -> & -> & S)]; [left; reflexivity|]. right. exists b, a. split; [reflexivity|]. split; [reflexivity|].
  apply sym_package; [exact resaved_sym | exact S].
Qed.
End Run.

(** ** Documents of which the same is read *)

Section Ind.
Variable P : welem -> Prop.
Hypothesis H : forall i t a x ks, Forall P ks -> P (W i t a x ks).
Fixpoint w_ind (e : welem) : P e :=
  match e with
  | W i t a x ks => H i t a x ks ((fix go l : Forall P l := match l with [] => Forall_nil P | k :: r => Forall_cons k (w_ind k) (go r) end) ks)
  end.
End Ind.
Lemma unread_iff k : tag_read k || has_table k = false -> unread k.
Proof.
  intros E. apply orb_false_iff in E as [T B]. split.
  - intros I. apply in_map_iff in I as (t & ET & I). unfold tag_read in T. assert (X : existsb (fun t => seqb (w_tag k) (utf8 t)) elements_read = true); [|congruence].
    apply existsb_exists. exists t. split; [exact I|]. apply seqb_eq. symmetry. exact ET.
  - unfold has_table in B. apply Forall_forall. intros x I E. assert (X : existsb (is_tag "w:tbl") (below k) = true); [|congruence].
    apply existsb_exists. exists x. split; [exact I|]. apply is_tag_iff. exact E.
Qed.
Lemma same_read_find a a' : (forall n, In n attributes_read -> find (fun p => seqb (fst p) (utf8 n)) a = find (fun p => seqb (fst p) (utf8 n)) a') -> same_read a a'.
Proof.
  intros F n o I. rewrite <- (w_attr_valued n (W 0 [] a None [])), <- (w_attr_valued n (W 0 [] a' None [])). unfold w_attr. cbn [w_attrs]. rewrite (F n I). reflexivity.
Qed.
Lemma read_filter a : same_read a (filter (fun p => existsb (fun n => seqb (fst p) (utf8 n)) attributes_read) a).
Proof.
  apply same_read_find. intros n I. induction a as [|[m v] a IH]; [reflexivity|]. cbn [find filter fst]. destruct (seqb m (utf8 n)) eqn:E.
  - assert (X : existsb (fun n => seqb m (utf8 n)) attributes_read = true) by (apply existsb_exists; exists n; auto). rewrite X. cbn [find fst]. rewrite E. reflexivity.
  - destruct (existsb (fun n => seqb m (utf8 n)) attributes_read); [cbn [find fst]; rewrite E; exact IH | exact IH].
Qed.
(** All that is not read can be taken out. *)
Theorem C96_cleaned e : resaved e (cleaned e).
Proof.
  induction e as [i t a x ks IH] using w_ind. cbn [cleaned]. constructor; [reflexivity | apply read_filter | intros ->; reflexivity|].
  induction IH as [|k ks K _ IHK]; cbn [flat_map]; [constructor|]. destruct (tag_read k || has_table k) eqn:E.
  - apply ri_same; assumption.
  - apply unread_iff in E. destruct (seqb t (utf8 "w:tc")) eqn:T; cbn [app].
    + apply ri_other; [exact E| |exact IHK]. apply unread_iff. vm_compute. reflexivity.
    + apply ri_fewer; [|exact E|exact IHK]. intros X. apply seqb_eq in X. congruence.
Qed.
Lemma resaved_refl e : resaved e e.
Proof.
  induction e as [i t a x ks IH] using w_ind. constructor; [reflexivity | intros n o _; reflexivity | reflexivity|].
  induction IH as [|k ks K _ IHK]; [constructor | apply ri_same; assumption].
Qed.
(** Numbers of the editing sessions, and a mark of the spelling checker at the end of everything
    that is not a cell. *)
Fixpoint edited (e : welem) : welem :=
  match e with
  | W i t a x ks => W i t ((utf8 "w:rsidR", utf8 "00AB12CD") :: a) x
      (map edited ks ++ if seqb t (utf8 "w:tc") then [] else [lx_e "w:proofErr" [("w:type", "spellEnd")] []])
  end.
Theorem C96_edited e : resaved e (edited e).
Proof.
  induction e as [i t a x ks IH] using w_ind. cbn [edited]. constructor; [reflexivity| |reflexivity|].
  - apply same_read_find. intros n I. cbn [find fst].
    assert (X : forallb (fun n => negb (seqb (utf8 "w:rsidR") (utf8 n))) attributes_read = true) by (vm_compute; reflexivity).
    rewrite forallb_forall in X. apply X in I. apply negb_true_iff in I. rewrite I. reflexivity.
  - induction IH as [|k ks K _ IHK]; cbn [map app]; [|apply ri_same; assumption]. destruct (seqb t (utf8 "w:tc")) eqn:T; [constructor|].
    apply ri_more; [intros X; apply seqb_eq in X; congruence | apply unread_iff; vm_compute; reflexivity | constructor].
Qed.

(** The docx file of C82 saved again: it is another one, and the run is the same. *)
Definition edited_pack : package := mkPackage (Some (edited (dx_body en_doc))) None (Some (edited dk_header)) (Some (edited (dx_styles en_doc))).
Definition edited_disk : disk := fun q => if same q dk_a then Some (Package edited_pack) else dk_disk q.
Example C96_sample : Disk.runs dk_version dk_read dk_cmd edited_disk dk_w 0 /\ edited_pack <> dk_pack /\ dk_w <> [].
Proof.
  split; [|split; [intros E; apply (f_equal pk_document) in E; vm_compute in E; discriminate E | intros E; pose proof (proj2 C82_ex) as X; rewrite E in X; discriminate X]].
  refine (proj1 (C96_run dk_version dk_read dk_cmd dk_disk edited_disk _ dk_w 0) (proj1 C82_ex)).
  intros p _. destruct (same p dk_a) eqn:S; [|left; unfold edited_disk; rewrite S; reflexivity]. right. exists dk_pack, edited_pack.
  split; [unfold dk_disk; rewrite S; reflexivity|]. split; [unfold edited_disk; rewrite S; reflexivity|].
  split; [apply C96_edited|]. split; [exact Logic.I|]. split; [apply C96_edited|]. intros s.
  assert (J : joined (below dk_header) (utf8 "Demo Spec, Revision 1.0")) by exact (joined_all (below dk_header)).
  assert (J' : joined (below (edited dk_header)) (utf8 "Demo Spec, Revision 1.0")) by exact (joined_all (below (edited dk_header))).
  split; intros X; [rewrite (joined_one _ _ _ X J); exact J' | rewrite (joined_one _ _ _ X J'); exact J].
Qed.

(** In a cell an element that is not read does make a difference: a bookmark between two items
    of a list ends the list. *)
Theorem C96_bookmark_refuted : exists d d' a b k, unread k
  /\ d = css_doc lx_num (a ++ b) /\ d' = css_doc lx_num (a ++ k :: b)
  /\ exists us us', parse_docx d = DOk us /\ parse_docx d' = DOk us' /\ us <> us'.
Proof.
  exists (css_doc lx_num [lx_par "1" "0" "b"; lx_par "1" "0" "c"]), (css_doc lx_num [lx_par "1" "0" "b"; lx_e "w:bookmarkStart" [] []; lx_par "1" "0" "c"]),
    [lx_par "1" "0" "b"], [lx_par "1" "0" "c"], (lx_e "w:bookmarkStart" [] []).
  split; [apply unread_iff; vm_compute; reflexivity|]. split; [reflexivity|]. split; [reflexivity|].
  eexists _, _. split; [vm_compute; reflexivity|]. split; [vm_compute; reflexivity|]. discriminate.
Qed.

(** Text that is inserted with changes being tracked is among what is not read. *)
Example C96_insertion : forall i a x ks r, Forall (fun k => w_tag k = utf8 "w:t" \/ w_tag k = utf8 "w:rPr") (w_kids r) -> Forall (fun k => below k = []) (w_kids r) -> w_tag r = utf8 "w:r" ->
  resaved (W i (utf8 "w:p") a x (ks ++ [lx_e "w:ins" [] [r]])) (W i (utf8 "w:p") a x ks).
Proof.
  intros i a x ks r T B TR. constructor; [reflexivity | intros n o _; reflexivity | reflexivity|].
  induction ks as [|k ks IH]; [|apply ri_same; [apply resaved_refl | exact IH]].
  apply ri_fewer; [discriminate | | constructor]. split; [intros I; apply in_map_iff in I as (t & E & I); cbn [lx_e w_tag] in E; revert t I E|].
  - assert (X : forallb (fun t => negb (seqb (utf8 t) (utf8 "w:ins"))) elements_read = true) by (vm_compute; reflexivity). rewrite forallb_forall in X.
    intros t I E. apply X in I. rewrite E, seqb_refl in I. discriminate I.
  - unfold lx_e. cbn [below flat_map app]. rewrite app_nil_r. constructor; [rewrite TR; discriminate|].
    destruct r as [j t b y rk]. cbn [w_kids below] in *. clear TR. induction rk as [|k rk IH]; cbn [flat_map]; [constructor|]. inversion T; inversion B; subst. cbn [app].
    match goal with E : below k = [] |- _ => rewrite E end. cbn [app]. constructor; [|apply IH; assumption].
    match goal with E : _ \/ _ |- _ => destruct E as [->| ->]; discriminate end.
Qed.

Print Assumptions C96_document.
Print Assumptions C96_numbering.
Print Assumptions C96_run.
Print Assumptions C96_cleaned.
Print Assumptions C96_edited.
Print Assumptions C96_sample.
Print Assumptions C96_bookmark_refuted.
Print Assumptions C96_insertion.
