(** Properties C82, C83 and C84: the files of a run of the program. *)
From Coq Require Import NArith ZArith List Bool String Lia.
From Coq Require Import ZifyBool ZifyN ZifyNat.
From Verif Require Import PyStr PyStrFacts Xml Json JsonText Lint Extract Document Output Schema Cli Docx Render Css Disk.
From Verif Require Import SpecText SpecFmt SpecQuery SpecHtml SpecDocx SpecXml SpecCli SpecOutput SpecStage1 SpecStage2 SpecJson SpecDoc SpecOut SpecDisk.
From Verif Require Import XmlProofs XmlPrefix XmlNeat DocxFlow JsonProofs Prop_Fmt Prop_Cli Prop_Json Prop_Output Prop_Docx Prop_Xml Prop_Css Prop_Stage1 QueryProofs DiskProofs DiskJson.
Import ListNotations.
Local Open Scope string_scope.
Local Open Scope list_scope.
Local Open Scope N_scope.

Section Run.
Variable version : str.
Variable read : str -> source.
Local Notation convert := (Disk.convert version).
Local Notation process := (Disk.process version read).
Local Notation loop := (Disk.loop version read).
Local Notation runs := (Disk.runs version read).
Local Notation steps := (DiskProofs.steps version read).

(** ** C82 *)

(** A run that is not interrupted is one interrupted at its end. *)
Lemma leaves_interrupted k w d d' : leaves k w d d' -> interrupted k w d d'.
Proof. intros H q N. exists w, []. split; [symmetry; apply app_nil_r|]. left. exact (H q N). Qed.
(** Each file is the old one or is a beginning of a text written to it. *)
Lemma interrupted_cases k w d d' q : interrupted k w d d' -> q <> log_path k ->
  d' q = d q \/ exists s r, In (q, s ++ r) w /\ d' q = Some (Text s).
Proof.
  intros H N. destruct (H q N) as (w1 & w2 & -> & [E|(s & r & w3 & -> & E)]).
  - destruct (dafter_cases w1 d q) as [E'|(s & I & E')]; [left; congruence|]. right. exists s, []. rewrite app_nil_r. split; [apply in_or_app; auto | congruence].
  - right. exists s, r. split; [apply in_elt | exact E].
Qed.

(** Whether it succeeds, fails or is interrupted, a run changes no other files than the outputs
    of its inputs and the log. *)
Theorem C82_frame k d w st d' q :
  runs k d w st -> interrupted k w d d' -> d' q <> d q ->
  q = log_path k \/ exists p, In p (k_inputs k) /\ output_of (k_out k) p q.
Proof.
  intros R H N. destruct (path_dec q (log_path k)) as [E|NL]; [left; exact E|]. right.
  destruct (interrupted_cases _ _ _ _ _ H NL) as [E|(s & r & I & _)]; [congruence|].
  pose proof (runs_paths _ _ _ _ _ _ R) as F. rewrite Forall_forall in F. exact (F _ I).
Qed.
Lemma log_named k stem ext : named (snd (log_path k)) stem ext -> ext = utf8 "log".
Proof.
  intros N. assert (L : named (snd (log_path k)) (utf8 "spex") (utf8 "log")).
  { apply (named_ext (utf8 "spex") (utf8 "log")); [discriminate | discriminate | intros X; repeat (destruct X as [X|X]; [discriminate X|]); exact X]. }
  destruct (named_unique _ _ _ _ _ N L) as [_ E]. exact E.
Qed.
(** In particular no docx file, ... *)
Theorem C82_docx k d w st d' q stem :
  runs k d w st -> interrupted k w d d' -> docx_file q stem -> d' q = d q.
Proof.
  intros R H F. assert (NL : q <> log_path k) by (intros ->; apply log_named in F; discriminate).
  destruct (interrupted_cases _ _ _ _ _ H NL) as [E|(s & r & I & _)]; [exact E|]. exfalso.
  pose proof (runs_paths _ _ _ _ _ _ R) as P. rewrite Forall_forall in P. destruct (P _ I) as (p & _ & O). apply output_named in O as (_ & st' & _ & O). cbn [fst] in O.
  destruct O as [O|(_ & [O|O])]; destruct (named_unique _ _ _ _ _ F O) as [_ E]; discriminate.
Qed.
(** ... and no HTML file other than the one written for a docx input. *)
Theorem C82_html k d w st d' q stem :
  runs k d w st -> interrupted k w d d' -> html_file q stem -> ~ overlap (k_out k) (k_inputs k) q -> d' q = d q.
Proof.
  intros R H F NO. assert (NL : q <> log_path k) by (intros ->; apply log_named in F; discriminate).
  destruct (interrupted_cases _ _ _ _ _ H NL) as [E|(s & r & I & _)]; [exact E|]. exfalso.
  pose proof (runs_paths _ _ _ _ _ _ R) as P. rewrite Forall_forall in P. destruct (P _ I) as (p & IP & O). cbn [fst] in O. pose proof O as O2. apply output_named in O2 as (EO & st' & _ & O2).
  destruct O2 as [O2|(DF & [O2|O2])]; destruct (named_unique _ _ _ _ _ F O2) as [ES E]; try discriminate. subst st'.
  apply NO. exists p, stem. split; [exact IP|]. split; [exact DF|]. destruct q as [qd qn]. cbn [fst snd] in *. subst qd. f_equal. destruct F as [E' _]. exact E'.
Qed.

(** *** The run as in Cli.v *)

(** The JSON files written to their ends. *)
Definition json_texts (w : effects) : effects :=
  filter (fun e => seqb (path_suffix (snd (fst e))) (utf8 ".json") && match snd e with [] => false | _ => true end) w.
Lemma json_texts_app a b : json_texts (a ++ b) = json_texts a ++ json_texts b.
Proof. apply filter_app. Qed.
Lemma suffix_ext stem ext : stem <> [] -> ext <> [] -> ~ In 46 ext -> path_suffix (stem ++ 46 :: ext) = 46 :: ext.
Proof. intros A B C. apply (suffix_named _ stem). apply named_ext; assumption. Qed.
Ltac noext := intros X; repeat (destruct X as [X|X]; [discriminate X|]); exact X.
Lemma convert_no_json out stem c w b : stem <> [] -> convert out stem c w b -> json_texts w = [].
Proof.
  intros NE C. assert (E1 : path_suffix (stem ++ utf8 ".css") = utf8 ".css") by (apply (suffix_ext stem (utf8 "css")); [exact NE | discriminate | noext]).
  assert (E2 : path_suffix (stem ++ utf8 ".html") = utf8 ".html") by (apply (suffix_ext stem (utf8 "html")); [exact NE | discriminate | noext]).
  inversion C; subst; unfold json_texts; cbn [filter fst snd]; rewrite ?E1, ?E2; reflexivity.
Qed.
Lemma json_text_kept out stem m : stem <> [] ->
  json_texts [((out, stem ++ utf8 ".json"), []); ((out, stem ++ utf8 ".json"), file_text m)] = [((out, stem ++ utf8 ".json"), file_text m)].
Proof.
  intros NE. assert (E : path_suffix (stem ++ utf8 ".json") = utf8 ".json") by (apply (suffix_ext stem (utf8 "json")); [exact NE | discriminate | noext]).
  unfold json_texts. cbn [filter fst snd]. rewrite E, seqb_refl, andb_false_r. cbn [andb].
  destruct (file_text m) as [|c r] eqn:F; [|reflexivity]. exfalso. destruct (proj1 (C71_text m)) as (a & t & b & X & _ & _ & J). rewrite F in X.
  symmetry in X. apply app_eq_nil in X as [_ X]. apply app_eq_nil in X as [X _]. destruct (jvalue_head _ _ J) as (x & y & E' & _). congruence.
Qed.
(** What [Cli.main] is given: the files as they are found when their turn comes. *)
Definition as_file (name : str) (h : source) (raised : bool) : file := mkFile name h 0 [] raised h.
Lemma process_file args out d p w m e : In (path_suffix (snd p)) [utf8 ".html"; utf8 ".docx"] -> process args out d p w m e ->
  exists f, f_name f = snd p /\ r_file (parse_spec version args false None (as_input f)) = m /\ r_end (parse_spec version args false None (as_input f)) = e
    /\ json_texts w = match m with Some m => [((out, json_name (Cli.html_file f)), file_text m)] | None => [] end.
Proof.
  intros A P. apply accepted_name in A as (stem & A). inversion P as [dir name r m' NS E F|dir name w' S C|dir name w' r m' S C E F]; subst; cbn [snd] in *.
  - destruct A as [N|N]; [exfalso; apply NS; apply suffix_docx; exists stem; exact N|].
    exists (as_file name (source_of read (disk_after [((out, json_name name), [])] d (dir, name))) false).
    unfold as_input, Cli.html_file. cbn [f_name as_file f_html]. rewrite (proj2 (seqb_neq _ _) NS). split; [reflexivity|]. split; [exact F|]. split; [reflexivity|].
    pose proof (json_name_of (dir, name) stem N) as JN. cbn [snd] in JN. rewrite JN. apply json_text_kept. apply N.
  - destruct A as [N|N]; [|exfalso; exact (not_docx (dir, name) stem N S)].
    exists (as_file name Unreadable true). unfold as_input, Cli.html_file. cbn [f_name as_file f_html f_total f_reports f_raised f_made]. rewrite (proj2 (seqb_eq _ _) S).
    split; [reflexivity|]. split; [reflexivity|]. split; [reflexivity|]. rewrite (drop_named name stem _ N) in C. apply (convert_no_json _ _ _ _ _ (proj1 (proj2 N)) C).
  - destruct A as [N|N]; [|exfalso; exact (not_docx (dir, name) stem N S)].
    exists (as_file name (source_of read (disk_after (w' ++ [((out, json_name (html_name name)), [])]) d (out, html_name name))) false).
    unfold as_input, Cli.html_file. cbn [f_name as_file f_html f_total f_reports f_raised f_made]. rewrite (proj2 (seqb_eq _ _) S). split; [reflexivity|]. split; [exact F|]. split; [reflexivity|].
    rewrite json_texts_app. rewrite (drop_named name stem _ N) in C. rewrite (convert_no_json _ _ _ _ _ (proj1 (proj2 N)) C). cbn [app].
    destruct (html_name_of (dir, name) stem N) as [_ JN]. cbn [snd] in JN. rewrite JN. apply json_text_kept. apply N.
Qed.
Lemma loop_cli args validate out d ins w st : loop args validate out d ins w st ->
  exists fs outs, map f_name fs = map snd ins /\ inputs_loop version args validate fs = (outs, st)
    /\ json_texts w = map (fun o => ((out, fst o), file_text (snd o))) outs.
Proof.
  induction 1 as [d|d p ins N|d p ins w m e A P W|d p ins w m e w' st A P W _ IH].
  - exists [], []. repeat split.
  - exists (map (fun p => as_file (snd p) Unreadable false) (p :: ins)), []. split; [rewrite map_map; reflexivity|]. split; [|reflexivity]. cbn [map inputs_loop f_name as_file].
    destruct (seqb (path_suffix (snd p)) (utf8 ".json")); [reflexivity|].
    destruct (smem (path_suffix (snd p)) [utf8 ".html"; utf8 ".docx"]) eqn:M; [|reflexivity]. apply smem_In in M. contradiction.
  - destruct (process_file _ _ _ _ _ _ _ A P) as (f & FN & RF & RE & J).
    exists (f :: map (fun p => as_file (snd p) Unreadable false) ins).
    exists (match m with Some m => [(json_name (Cli.html_file f), m)] | None => [] end).
    split; [cbn [map]; rewrite FN, map_map; reflexivity|]. split; [|rewrite J; destruct m; reflexivity].
    cbn [inputs_loop]. rewrite FN, RF, RE. replace (seqb (path_suffix (snd p)) (utf8 ".json")) with false.
    2: { symmetry. apply seqb_neq. intros X. rewrite X in A. destruct A as [A|[A|[]]]; discriminate. }
    rewrite (proj2 (smem_In _ _) A). cbn [negb].
    unfold well in W. destruct e; [|destruct m; reflexivity]. destruct m as [m|]; [|reflexivity].
    destruct (validate && negb (valid stage2_schema (model_json m))); [reflexivity | discriminate].
  - destruct (process_file _ _ _ _ _ _ _ A P) as (f & FN & RF & RE & J). destruct IH as (fs & outs & FS & IL & J').
    destruct (well_inv _ _ _ W) as (m' & -> & ->). exists (f :: fs), ((json_name (Cli.html_file f), m') :: outs).
    split; [cbn [map]; rewrite FN, FS; reflexivity|]. split; [|rewrite json_texts_app, J, J'; reflexivity].
    cbn [inputs_loop]. rewrite FN, RF, RE. replace (seqb (path_suffix (snd p)) (utf8 ".json")) with false.
    2: { symmetry. apply seqb_neq. intros X. rewrite X in A. destruct A as [A|[A|[]]]; discriminate. }
    rewrite (proj2 (smem_In _ _) A). cbn [negb]. unfold well in W.
    destruct (validate && negb (valid stage2_schema (model_json m'))); [discriminate|]. rewrite IL. reflexivity.
Qed.
(** A run of the program in the model with files is one in the model without (Cli.v), for which
    C59, C60 and C61 hold: the same status and the same JSON files in the same order. *)
Theorem C82_model k d w st : runs k d w st ->
  exists c outs, c_skip c = k_skip k /\ c_ignore c = k_ignore k /\ c_validate c = k_validate k
    /\ Forall2 (fun p o => match o with Some f => d p <> None /\ f_name f = snd p | None => d p = None end) (k_inputs k) (c_inputs c)
    /\ main version c = (outs, st) /\ json_texts w = map (fun o => ((k_out k, fst o), file_text (snd o))) outs.
Proof.
  intros R. unfold Disk.runs in R.
  set (blank := fun p : path => match d p with Some _ => Some (as_file (snd p) Unreadable false) | None => None end).
  assert (BL : forall ins, Forall2 (fun p o => match o with Some f => d p <> None /\ f_name f = snd p | None => d p = None end) ins (map blank ins)).
  { induction ins as [|p ins IH]; constructor; [|exact IH]. unfold blank. destruct (d p); [split; [discriminate | reflexivity] | reflexivity]. }
  destruct (forallb (found d) (k_inputs k)) eqn:FA.
  - assert (SQ : forall ins, forallb (found d) ins = true -> exists fs, sequence (map blank ins) = Some fs).
    { induction ins as [|p ins IH]; [exists []; reflexivity|]. cbn [forallb map]. rewrite andb_true_iff. intros [F G]. unfold found in F. destruct (IH G) as [fs E]. unfold blank at 1. destruct (d p); [|discriminate].
      cbn [sequence]. rewrite E. eexists. reflexivity. }
    destruct (match k_ignore k with Some t => arg_lintcode t | None => Some [] end) as [ig|] eqn:IG.
    + destruct (k_inputs k) as [|p ins] eqn:KI.
      * destruct R as [-> ->]. exists (mkCli (k_skip k) (k_ignore k) (k_validate k) []), []. repeat (split; [try reflexivity; try constructor|]); [|reflexivity]. unfold main. cbn [c_inputs c_ignore sequence]. rewrite IG. reflexivity.
      * destruct (loop_cli _ _ _ _ _ _ _ R) as (fs & outs & FS & IL & J). exists (mkCli (k_skip k) (k_ignore k) (k_validate k) (map Some fs)), outs.
        split; [reflexivity|]. split; [reflexivity|]. split; [reflexivity|]. split; [|split; [|exact J]].
        -- cbn [c_inputs]. clear - FS FA. revert fs FS FA. generalize (p :: ins). intros l. induction l as [|q l IH]; intros [|f fs] FS FA; cbn [map] in *; try discriminate; constructor.
           ++ injection FS as E _. cbn [forallb] in FA. apply andb_true_iff in FA as [FA _]. unfold found in FA. split; [destruct (d q); [discriminate | discriminate FA] | exact E].
           ++ injection FS as _ E. cbn [forallb] in FA. apply andb_true_iff in FA as [_ FA]. apply IH; assumption.
        -- unfold main. cbn [c_inputs c_ignore c_skip c_validate]. rewrite IG. replace (sequence (map Some fs)) with (Some fs) by (clear; induction fs as [|f fs IH]; [reflexivity|]; cbn [map sequence]; rewrite <- IH; reflexivity).
           destruct fs as [|f fs]; [discriminate FS | exact IL].
    + destruct R as [-> ->]. exists (mkCli (k_skip k) (k_ignore k) (k_validate k) (map blank (k_inputs k))), []. repeat (split; [try reflexivity; try apply BL|]); [|reflexivity].
      unfold main. cbn [c_inputs c_ignore]. rewrite IG. destruct (SQ _ FA) as [[|f fs] ->]; reflexivity.
  - destruct R as [-> ->]. exists (mkCli (k_skip k) (k_ignore k) (k_validate k) (map blank (k_inputs k))), []. repeat (split; [try reflexivity; try apply BL|]); [|reflexivity].
    unfold main. cbn [c_inputs c_ignore]. replace (sequence (map blank (k_inputs k))) with (@None (list file)); [destruct (match k_ignore k with Some t => arg_lintcode t | None => Some [] end); reflexivity|].
    symmetry. clear - FA. induction (k_inputs k) as [|p ins IH]; [discriminate|]. cbn [forallb map] in *. unfold found in FA. unfold blank at 1. destruct (d p); [|reflexivity]. cbn [andb sequence] in *. rewrite (IH FA). reflexivity.
Qed.

(** ** C83 *)

(** Opening a docx file. *)
Lemma int_not_key s : d_int s <> DErr DKey.
Proof. unfold d_int. destruct (py_int s); discriminate. Qed.
Lemma req_not_key ts a e : attr_first_req ts a e <> DErr DKey.
Proof. unfold attr_first_req. destruct (attr_first ts a e); discriminate. Qed.
Lemma bind_not_key {A B} (x : dres A) (f : A -> dres B) : x <> DErr DKey -> (forall a, f a <> DErr DKey) -> dbind x f <> DErr DKey.
Proof. intros H G. destruct x as [a|e|]; cbn [dbind]; [apply G | intros [= ->]; apply H; reflexivity | discriminate]. Qed.
Lemma numbering_not_key e x : parse_numbering e = DErr x -> x <> DKey.
Proof.
  intros E ->. revert E. unfold parse_numbering. apply bind_not_key.
  - generalize (@nil (Z * list lvl)). induction (w_children "w:abstractNum" e) as [|c cs IH]; intros l; cbn [parse_abs]; [discriminate|].
    apply bind_not_key; [apply req_not_key|]. intros n. apply bind_not_key; [apply int_not_key|]. intros z. apply bind_not_key; [|intros ls; apply IH].
    generalize (w_children "w:lvl" c). intros ls. induction ls as [|v ls IHl]; cbn [dmap]; [discriminate|].
    apply bind_not_key; [|intros y; apply bind_not_key; [exact IHl | discriminate]]. unfold parse_lvl.
    apply bind_not_key; [apply req_not_key|]. intros i. apply bind_not_key; [apply int_not_key|]. intros j.
    apply bind_not_key; [apply req_not_key|]. intros f. apply bind_not_key; [apply req_not_key|]. discriminate.
  - intros a. apply bind_not_key; [|discriminate]. generalize (@nil (Z * Z)). induction (w_children "w:num" e) as [|c cs IH]; intros l; cbn [parse_nums]; [discriminate|].
    apply bind_not_key; [destruct (attr_first [] "w:numId" c); [apply int_not_key | discriminate]|]. intros n.
    apply bind_not_key; [destruct (attr_first _ _ c); [apply int_not_key | discriminate]|]. intros m. apply IH.
Qed.
Lemma joined_all : forall es, joined es (flat_map (fun e => match w_text e with Some x => x | None => [] end) (filter (is_tag "w:t") es)).
Proof.
  induction es as [|e es IH]; [constructor|]. cbn [filter]. destruct (is_tag "w:t" e) eqn:T.
  - cbn [flat_map]. destruct (w_text e) as [x|] eqn:X; [apply jo_text; auto; apply is_tag_iff; exact T | apply jo_skip; auto].
  - apply jo_skip; [left; intros X; apply is_tag_iff in X; congruence | exact IH].
Qed.
Lemma open_holds p d h : open_docx p = DOk (d, h) -> holds_document p d (header_title h) (header_revision h).
Proof.
  unfold open_docx, extract. destruct (pk_document p) as [body|] eqn:PB; [|discriminate]. cbn [dbind].
  destruct (match (dlet e <- match pk_numbering p with Some e => DOk e | None => DErr DKey end; parse_numbering e) with DOk n => DOk (Some n) | DErr DKey => DOk None | DErr e => DErr e | DFuel => DFuel end) as [num| |] eqn:PN; try discriminate. cbn [dbind].
  destruct (pk_header p) as [hd|] eqn:PH; [|discriminate]. cbn [dbind]. destruct (pk_styles p) as [sty|] eqn:PS; [|discriminate]. cbn [dbind].
  destruct (styles_ok sty) as [u| |]; [|discriminate|discriminate]. cbn [dbind]. intros [= <- <-]. exists hd, (header_text hd). cbn [dx_body dx_styles dx_num].
  split; [exact PB|]. split; [exact PS|]. split; [exact PH|]. split; [|split; [apply joined_all|split]].
  - destruct (pk_numbering p) as [e|]; cbn [dbind] in PN.
    + destruct (parse_numbering e) as [n|x|] eqn:E; [injection PN as <-; eauto | | discriminate]. exfalso. apply numbering_not_key in E. destruct x; congruence.
    + injection PN as <-. reflexivity.
  - apply C54_title.
  - unfold revision_is. destruct (header_revision (header_text hd)) as [w|] eqn:R; [apply (proj1 (C54_revision _)); exact R | apply (proj2 (C54_revision _)); exact R].
Qed.

(** There is one document in a docx file, with one title and one revision. *)
Lemma trim_front : forall (a : str) x t y, Forall (fun c => isspace c = true) a -> (forall c r, x = c :: r -> isspace c = false) ->
  (forall c r, t = c :: r -> isspace c = false) -> t <> [] -> forall b, Forall (fun c => isspace c = true) b -> a ++ x = b ++ t ++ y -> a = b /\ x = t ++ y \/ x = [].
Proof.
  induction a as [|u a IH]; intros x t y FA X T NT b FB E; cbn [app] in E.
  - destruct x as [|c x]; [right; reflexivity|]. left. destruct b as [|v b]; [auto|]. injection E as -> _. inversion FB; subst. rewrite (X v x eq_refl) in *. discriminate.
  - inversion FA; subst. destruct b as [|v b]; cbn [app] in E.
    + destruct t as [|c t]; [congruence|]. injection E as -> _. rewrite (T c t eq_refl) in *. discriminate.
    + injection E as -> E. inversion FB; subst. destruct (IH x t y ltac:(assumption) X T NT b ltac:(assumption) E) as [[-> ->]|H]; auto.
Qed.
Lemma trimmed_one s t t' : SpecFmt.trimmed s t -> SpecFmt.trimmed s t' -> t = t'.
Proof.
  assert (NIL : forall s t, SpecFmt.trimmed s [] -> SpecFmt.trimmed s t -> t = []).
  { intros s0 t0 ((a & b & E & FA & FB) & _) ((a' & b' & E' & _ & _) & T0 & _). destruct t0 as [|c t0]; [reflexivity|]. exfalso.
    assert (F : Forall (fun c => isspace c = true) s0) by (rewrite E; apply Forall_app; auto). rewrite E' in F. apply Forall_app in F as [_ F]. cbn [app] in F.
    inversion F; subst. rewrite (T0 c t0 eq_refl) in *. discriminate. }
  intros H H'. destruct t as [|c t]; [symmetry; exact (NIL _ _ H H')|]. destruct t' as [|c' t']; [exact (NIL _ _ H' H)|].
  destruct H as ((a & b & E & FA & FB) & T1 & T2), H' as ((a' & b' & E' & FA' & FB') & T1' & T2').
  rewrite E in E'. destruct (trim_front a ((c :: t) ++ b) (c' :: t') b' FA) with (b := a') as [[_ X]|X]; auto; try discriminate.
  { intros d r [= <- _]. exact (T1 c t eq_refl). }
  apply (f_equal (@rev N)) in X. rewrite !rev_app_distr in X.
  destruct (trim_front (rev b) (rev (c :: t)) (rev (c' :: t')) []) with (b := rev b') as [[_ Y]|Y]; auto.
  - apply Forall_rev. exact FB.
  - intros d r Y. apply (T2 d (rev r)). rewrite <- (rev_involutive (c :: t)), Y. reflexivity.
  - intros d r Y. apply (T2' d (rev r)). rewrite <- (rev_involutive (c' :: t')), Y. reflexivity.
  - intros Y. apply (f_equal (@rev N)) in Y. rewrite rev_involutive in Y. discriminate.
  - apply Forall_rev. exact FB'.
  - rewrite app_nil_r. exact X.
  - rewrite app_nil_r in Y. rewrite <- (rev_involutive (c :: t)), Y. apply rev_involutive.
  - apply (f_equal (@rev N)) in Y. rewrite rev_involutive in Y. discriminate.
Qed.
Lemma title_one h t t' : title_is h t -> title_is h t' -> t = t'.
Proof.
  intros (x & E & N & T) (x' & E' & N' & T'). enough (x = x') as <- by exact (trimmed_one _ _ _ T T').
  assert (G : forall (h x : str), (h = x \/ exists r, h = x ++ 44 :: r) -> ~ In 44 x -> x = fst (split1 44 h)).
  { clear. induction h as [|c h IH]; intros x E N.
    - destruct E as [<-|[r E]]; [reflexivity | destruct x; discriminate].
    - destruct x as [|d x].
      + destruct E as [E|[r E]]; [discriminate|]. injection E as -> _. reflexivity.
      + assert (d = c) as -> by (destruct E as [E|[r E]]; injection E; congruence).
        cbn [split1]. destruct (N.eqb_spec c 44) as [->|NE]; [exfalso; apply N; left; reflexivity|].
        rewrite (surjective_pairing (split1 44 h)). cbn [fst]. f_equal. apply (IH x); [|intros I; apply N; right; exact I].
        destruct E as [E|[r E]]; injection E as E; [left; exact E | right; exists r; exact E]. }
  rewrite (G h x E N), (G h x' E' N'). reflexivity.
Qed.
Lemma revision_one h o o' : revision_is h o -> revision_is h o' -> o = o'.
Proof.
  assert (G : forall o, revision_is h o -> header_revision h = o).
  { intros [w|] R; [apply (proj1 (C54_revision h) w); exact R | apply (proj2 (C54_revision h)); exact R]. }
  intros A B. rewrite <- (G o A), <- (G o' B). reflexivity.
Qed.
Lemma joined_one es : forall s s', joined es s -> joined es s' -> s = s'.
Proof.
  induction es as [|e es IH]; intros s s' A B; inversion A as [|? ? x1 s1 T1 X1 J1|? ? s1 N1 J1]; inversion B as [|? ? x2 s2 T2 X2 J2|? ? s2 N2 J2]; subst; auto.
  - rewrite (IH _ _ J1 J2). congruence.
  - destruct N2; congruence.
  - destruct N1; congruence.
Qed.
Theorem C83_one p d t r d' t' r' : holds_document p d t r -> holds_document p d' t' r' -> d = d' /\ t = t' /\ r = r'.
Proof.
  intros (hd & h & B & Y & H & N & J & T & R) (hd' & h' & B' & Y' & H' & N' & J' & T' & R').
  assert (hd = hd') as <- by congruence. rewrite (joined_one _ _ _ J' J) in *.
  split; [|split; [exact (title_one _ _ _ T T') | exact (revision_one _ _ _ R R')]].
  destruct d as [b n y], d' as [b' n' y']. cbn [dx_body dx_num dx_styles] in *. f_equal; try congruence.
  destruct (pk_numbering p) as [e|]; [|congruence]. destruct N as (a & N1 & ->), N' as (a' & N1' & ->). congruence.
Qed.

(** An input that was processed well. *)
Lemma process_html args out d p stem w m : html_file p stem -> process args out d p w (Some m) Finished ->
  w = [((out, stem ++ utf8 ".json"), []); ((out, stem ++ utf8 ".json"), file_text m)]
  /\ exists s, d p = Some (Text s) /\ (exists root, read s = Tree root) /\ forall root, read s = Tree root -> json_for version args root (file_text m).
Proof.
  intros N P. inversion P as [dir name r m' NS E F EP EW EM EN|dir name w' S C|dir name w' r m' S C E F EP EW EM EN]; subst.
  2: { exfalso. exact (not_docx (dir, name) stem N S). }
  pose proof (json_name_of (dir, name) stem N) as JN. cbn [snd] in JN. rewrite JN in *. split; [reflexivity|].
  assert (NJ : (dir, name) <> (out, stem ++ utf8 ".json")).
  { intros [= _ X]. assert (stem <> []) by apply N. assert (J : named (stem ++ utf8 ".json") stem (utf8 "json")) by ext. unfold html_file in N. cbn [snd] in N. rewrite X in N.
    destruct (named_unique _ _ _ _ _ N J) as [_ ?]. discriminate. }
  rewrite dafter_other in F, EN by (cbn [map fst In]; intros [X|[]]; apply NJ; symmetry; exact X).
  destruct (d (dir, name)) as [[s| |]|] eqn:D; cbn [source_of] in *; try discriminate EN.
  exists s. split; [reflexivity|]. split; [destruct (read s) as [|root]; [discriminate EN | eauto]|].
  intros root R. apply (json_written version args (Html (read s))); cbn [html_of converted]; auto.
Qed.
Lemma process_docx args out d p stem w m : docx_file p stem -> process args out d p w (Some m) Finished ->
  exists pk doc h us html css, w = [((out, stem ++ utf8 ".css"), css); ((out, stem ++ utf8 ".html"), html); ((out, stem ++ utf8 ".json"), []); ((out, stem ++ utf8 ".json"), file_text m)]
    /\ d p = Some (Package pk) /\ open_docx pk = DOk (doc, h) /\ generated doc version stem (header_title h) (header_revision h) us html css
    /\ (exists root, read html = Tree root) /\ forall root, read html = Tree root -> json_for version args root (file_text m).
Proof.
  intros N P. inversion P as [dir name r m' NS E F EP EW EM EN|dir name w' S C|dir name w' r m' S C E F EP EW EM EN]; subst.
  1: { exfalso. apply NS. apply suffix_docx. exists stem. exact N. }
  destruct (html_name_of (dir, name) stem N) as [HN JN]. cbn [snd] in HN, JN. rewrite HN in *. rewrite <- HN, JN in *. rewrite HN in *. rewrite (drop_named name stem _ N) in C.
  inversion C as [| | | |pk doc h us ts c html css OP PD HD W L X1 X2]; subst. exists pk, doc, h, us, html, css. split; [reflexivity|]. split; [reflexivity|]. split; [exact OP|].
  split; [exists ts, c; auto|]. assert (NE : stem <> []) by apply N.
  assert (JH : named (stem ++ utf8 ".html") stem (utf8 "html")) by ext. assert (JJ : named (stem ++ utf8 ".json") stem (utf8 "json")) by ext.
  rewrite (dafter_last [((out, stem ++ utf8 ".css"), css)] (out, stem ++ utf8 ".html") html [((out, stem ++ utf8 ".json"), [])]) in F, EN.
  2, 3: cbn [map fst In]; intros [X|[]]; apply (f_equal snd) in X; cbn [snd] in X; rewrite X in JJ; destruct (named_unique _ _ _ _ _ JH JJ) as [_ ?]; discriminate.
  cbn [source_of] in *. split; [destruct (read html) as [|root]; [discriminate EN | eauto]|].
  intros root R. apply (json_written version args (Docx 0 [] false (read html))); cbn [html_of converted]; auto.
Qed.

(** Nothing written for inputs with other stems is one of the files for this stem. *)
Lemma other_outputs out ins stem q : (forall p, In p ins -> ~ has_stem p stem) ->
  (exists ext, named (snd q) stem ext) -> ~ exists p, In p ins /\ output_of out p q.
Proof.
  intros NS (ext & N) (p & I & O). apply output_named in O as (_ & st & HS & O). apply (NS p I).
  assert (st = stem) as <-; [|exact HS]. destruct O as [O|(_ & [O|O])]; destruct (named_unique _ _ _ _ _ O N); assumption.
Qed.
Definition same_options (k k' : command) : Prop :=
  k_skip k' = k_skip k /\ k_ignore k' = k_ignore k /\ k_validate k' = k_validate k /\ k_out k' = k_out k /\ k_cwd k' = k_cwd k.

Lemma runs_ok k d w : runs k d w 0 -> exists ig, ignores (k_ignore k) ig /\ k_inputs k <> [] /\ Forall (fun p => d p <> None) (k_inputs k)
  /\ steps (mkArgs (k_skip k) ig) (k_validate k) (k_out k) d (k_inputs k) w.
Proof.
  unfold Disk.runs. destruct (forallb (found d) (k_inputs k)) eqn:FA; [|intros [_ ?]; discriminate].
  destruct (match k_ignore k with Some t => arg_lintcode t | None => Some [] end) as [ig|] eqn:IG; [|intros [_ ?]; discriminate].
  intros R. exists ig. split.
  { unfold ignores. destruct (k_ignore k) as [t|]; [apply C61_codes; exact IG | congruence]. }
  destruct (k_inputs k) as [|p ins]; [destruct R; discriminate|]. split; [discriminate|]. split; [|apply loop_steps; exact R].
  apply Forall_forall. intros q I. rewrite forallb_forall in FA. specialize (FA q I). unfold found in FA. destruct (d q); [discriminate | discriminate FA].
Qed.

(** After a run with status 0 there are, for each docx input with no later input of the same
    name: the style sheet and the HTML file written for the document in it, and the JSON file
    for what this HTML file says. *)
Theorem C83_docx k d w d' A p B stem :
  reads_xml read -> runs k d w 0 -> leaves k w d d' -> k_inputs k = A ++ p :: B -> docx_file p stem ->
  (forall p', In p' B -> ~ has_stem p' stem) ->
  exists pk doc title rev us html css json ig,
    d p = Some (Package pk) /\ holds_document pk doc title rev /\ ignores (k_ignore k) ig
    /\ d' (k_out k, stem ++ utf8 ".css") = Some (Text css)
    /\ d' (k_out k, stem ++ utf8 ".html") = Some (Text html)
    /\ d' (k_out k, stem ++ utf8 ".json") = Some (Text json)
    /\ generated doc version stem title rev us html css
    /\ (regular_tables doc -> document_means doc us)
    /\ (usual doc version stem title rev ->
        exists root txt cell, xdocument html root /\ document_shows txt cell version stem title rev us root
          /\ json_for version (mkArgs (k_skip k) ig) root json).
Proof.
  intros RX R L KI N NB. destruct (runs_ok _ _ _ R) as (ig & IG & _ & _ & S). rewrite KI in S.
  destruct (steps_at _ _ _ _ _ _ _ _ _ _ S) as (w1 & w2 & w3 & m & -> & S1 & AC & P & _ & S3).
  destruct (process_docx _ _ _ _ _ _ _ N P) as (pk & doc & h & us & html & css & -> & DP & OP & G & _ & JF).
  assert (NE : stem <> []) by apply N.
  assert (D0 : d p = Some (Package pk)).
  { rewrite dafter_other in DP; [exact DP|]. intros I. apply in_map_iff in I as (x & EX & I). destruct (steps_paths _ _ _ _ _ _ _ _ S1 x I) as (q & _ & O). rewrite EX in O.
    apply output_named in O as (_ & st & _ & O). unfold docx_file in N. destruct O as [O|(_ & [O|O])]; destruct (named_unique _ _ _ _ _ N O) as [_ ?]; discriminate. }
  assert (LATE : forall q, (exists ext, named (snd q) stem ext) -> ~ In q (map fst w3)).
  { intros q NQ I. apply in_map_iff in I as (x & EX & I). apply (other_outputs (k_out k) B stem q NB NQ). destruct (steps_paths _ _ _ _ _ _ _ _ S3 x I) as (p' & I' & O). rewrite EX in O. eauto. }
  assert (NL : forall ext s, named s stem ext -> ext <> utf8 "log" -> (k_out k, s) <> log_path k).
  { intros ext s NX X E. apply X. apply (log_named k stem). rewrite <- E. exact NX. }
  assert (JC : named (stem ++ utf8 ".css") stem (utf8 "css")) by ext. assert (JH : named (stem ++ utf8 ".html") stem (utf8 "html")) by ext.
  assert (JJ : named (stem ++ utf8 ".json") stem (utf8 "json")) by ext.
  assert (DIFF : forall e1 e2 s1 s2, named s1 stem e1 -> named s2 stem e2 -> e1 <> e2 -> (k_out k, s1) <> (k_out k, s2)).
  { intros e1 e2 s1 s2 N1 N2 X [= E]. subst s2. destruct (named_unique _ _ _ _ _ N1 N2). congruence. }
  exists pk, doc, (header_title h), (header_revision h), us, html, css, (file_text m), ig.
  split; [exact D0|]. split; [apply open_holds; exact OP|]. split; [exact IG|].
  split; [|split; [|split; [|split; [exact G|split]]]].
  - rewrite L by (exact (NL _ _ JC ltac:(discriminate))). cbn [app]. apply dafter_last. cbn [map fst In]. intros [X|[X|[X|X]]].
    + exact (DIFF _ _ _ _ JH JC ltac:(discriminate) X).
    + exact (DIFF _ _ _ _ JJ JC ltac:(discriminate) X).
    + exact (DIFF _ _ _ _ JJ JC ltac:(discriminate) X).
    + exact (LATE (k_out k, stem ++ utf8 ".css") (ex_intro _ _ JC) X).
  - rewrite L by (exact (NL _ _ JH ltac:(discriminate))). cbn [app].
    match goal with |- disk_after (w1 ++ ?c :: ?r) _ _ = _ => change (w1 ++ c :: r) with (w1 ++ [c] ++ r); rewrite app_assoc end. apply dafter_last. cbn [map fst In]. intros [X|[X|X]].
    + exact (DIFF _ _ _ _ JJ JH ltac:(discriminate) X).
    + exact (DIFF _ _ _ _ JJ JH ltac:(discriminate) X).
    + exact (LATE (k_out k, stem ++ utf8 ".html") (ex_intro _ _ JH) X).
  - rewrite L by (exact (NL _ _ JJ ltac:(discriminate))). cbn [app].
    match goal with |- disk_after (w1 ++ ?a :: ?b :: ?c :: ?r) _ _ = _ => change (w1 ++ a :: b :: c :: r) with (w1 ++ [a; b; c] ++ r); rewrite app_assoc end. apply dafter_last.
    exact (LATE (k_out k, stem ++ utf8 ".json") (ex_intro _ _ JJ)).
  - intros RT. destruct G as (ts & c & PD & _). apply (C81_document doc us RT). exact PD.
  - intros U. destruct G as (ts & c & PD & HD & W & LW). destruct U as (UT & UH & UC).
    destruct (C73_file doc us version stem (header_title h) (header_revision h) ts c html) as (root & XD & _ & DS); auto.
    { intros x t I. apply UT. apply node_has. exact I. }
    exists root, (emit_rules css_attrs (c_txt c)), (emit_rules fill_css (c_cell c)). split; [exact XD|]. split; [exact DS|]. apply JF. apply RX. exact XD.
Qed.

(** And for each HTML input with no later input of the same name: the JSON file for what it says
    when the run ends.  By C82_html this is what it said before, unless it was overwritten. *)
Theorem C83_html k d w d' A p B stem :
  reads_xml read -> runs k d w 0 -> leaves k w d d' -> k_inputs k = A ++ p :: B -> html_file p stem ->
  (forall p', In p' B -> ~ has_stem p' stem) ->
  exists s json ig, d' p = Some (Text s) /\ ignores (k_ignore k) ig
    /\ d' (k_out k, stem ++ utf8 ".json") = Some (Text json)
    /\ forall root, xdocument s root -> json_for version (mkArgs (k_skip k) ig) root json.
Proof.
  intros RX R L KI N NB. destruct (runs_ok _ _ _ R) as (ig & IG & _ & _ & S). rewrite KI in S.
  destruct (steps_at _ _ _ _ _ _ _ _ _ _ S) as (w1 & w2 & w3 & m & -> & S1 & AC & P & _ & S3).
  destruct (process_html _ _ _ _ _ _ _ N P) as (-> & s & DP & _ & JF). assert (NE : stem <> []) by apply N.
  assert (JJ : named (stem ++ utf8 ".json") stem (utf8 "json")) by ext.
  assert (LATE : forall q, (exists ext, named (snd q) stem ext) -> ~ In q (map fst w3)).
  { intros q NQ I. apply in_map_iff in I as (x & EX & I). apply (other_outputs (k_out k) B stem q NB NQ). destruct (steps_paths _ _ _ _ _ _ _ _ S3 x I) as (p' & I' & O). rewrite EX in O. eauto. }
  assert (D1 : d' p = Some (Text s)).
  { rewrite L by (intros E; pose proof (log_named k stem (utf8 "html")) as X; rewrite <- E in X; specialize (X N); discriminate).
    rewrite dafter_app, dafter_other; [exact DP|]. rewrite map_app. intros I. apply in_app_or in I as [I|I]; [|exact (LATE p (ex_intro _ (utf8 "html") N) I)].
    destruct I as [I|[I|[]]]; cbn [fst] in I; rewrite <- I in N; unfold html_file in N; cbn [snd] in N; destruct (named_unique _ _ _ _ _ N JJ) as [_ ?]; discriminate. }
  exists s, (file_text m), ig. split; [exact D1|]. split; [exact IG|]. split.
  - rewrite L by (intros E; pose proof (log_named k stem (utf8 "json")) as X; rewrite <- E in X; specialize (X JJ); discriminate). cbn [app].
    match goal with |- disk_after (w1 ++ ?c :: ?r) _ _ = _ => change (w1 ++ c :: r) with (w1 ++ [c] ++ r); rewrite app_assoc end. apply dafter_last.
    exact (LATE (k_out k, stem ++ utf8 ".json") (ex_intro _ _ JJ)).
  - intros root X. apply JF. apply RX. exact X.
Qed.

(** A run that fails is a run with status 0 on the inputs before the failing one, and writes
    nothing else than outputs of this one. *)
Theorem C83_failure k d w st : runs k d w st -> st <> 0 ->
  exists good rest w1 w2, k_inputs k = good ++ rest /\ w = w1 ++ w2
    /\ (good = [] /\ w1 = [] \/ forall k', same_options k k' -> k_inputs k' = good -> runs k' d w1 0)
    /\ forall q s, In (q, s) w2 -> exists p r, rest = p :: r /\ output_of (k_out k) p q.
Proof.
  intros R ST. unfold Disk.runs in R. destruct (forallb (found d) (k_inputs k)) eqn:FA.
  2: { destruct R as [-> _]. exists [], (k_inputs k), [], []. split; [reflexivity|]. split; [reflexivity|]. split; [left; auto | intros q s []]. }
  destruct (match k_ignore k with Some t => arg_lintcode t | None => Some [] end) as [ig|] eqn:IG.
  2: { destruct R as [-> _]. exists [], (k_inputs k), [], []. split; [reflexivity|]. split; [reflexivity|]. split; [left; auto | intros q s []]. }
  destruct (k_inputs k) as [|p ins] eqn:KI; [destruct R as [-> _]; exists [], [], [], []; split; [reflexivity|]; split; [reflexivity|]; split; [left; auto | intros q s []]|].
  destruct (loop_split _ _ _ _ _ _ _ _ _ R) as (good & rest & w1 & w2 & E & -> & S & _ & _ & _ & _ & O).
  exists good, rest, w1, w2. split; [exact E|]. split; [reflexivity|]. split.
  - destruct good as [|g good]; [left; inversion S; auto|]. right. intros k' (K1 & K2 & K3 & K4 & _) KG. unfold Disk.runs. rewrite KG, K1, K2, K3, K4.
    replace (forallb (found d) (g :: good)) with true.
    2: { symmetry. rewrite E, forallb_app in FA. apply andb_true_iff in FA. symmetry; symmetry. apply FA. }
    rewrite IG. apply steps_loop. exact S.
  - intros q s I. exact (O _ I).
Qed.

(** ** C84 *)

(** Each write is one of some input. *)
Lemma loop_write args validate out d ins w st q t : loop args validate out d ins w st -> In (q, t) w ->
  exists p w0 wp m e, In p ins /\ In (path_suffix (snd p)) [utf8 ".html"; utf8 ".docx"] /\ process args out (disk_after w0 d) p wp m e /\ In (q, t) wp
    /\ (forall x, In x w0 -> exists p', In p' ins /\ output_of out p' (fst x)) /\ forall x, In x w0 \/ In x wp -> In x w.
Proof.
  induction 1 as [d|d p ins N|d p ins w m e A P W|d p ins w m e w' st A P W _ IH]; try (intros []; fail).
  - intros I. exists p, [], w, m, e. split; [left; reflexivity|]. split; [exact A|]. split; [exact P|]. split; [exact I|]. split; [intros x [] | intros x [[]|X]; exact X].
  - intros I. apply in_app_or in I as [I|I].
    + exists p, [], w, m, e. split; [left; reflexivity|]. split; [exact A|]. split; [exact P|]. split; [exact I|]. split; [intros x []|]. intros x [[]|X]. apply in_or_app. auto.
    + destruct (IH I) as (p' & w0 & wp & m' & e' & IP & A' & P' & I' & O & SUB). exists p', (w ++ w0), wp, m', e'. split; [right; exact IP|]. split; [exact A'|].
      rewrite dafter_app. split; [exact P'|]. split; [exact I'|]. split.
      * intros x X. apply in_app_or in X as [X|X].
        -- exists p. split; [left; reflexivity|]. pose proof (process_paths _ _ _ _ _ _ _ _ _ A P) as F. rewrite Forall_forall in F. exact (F x X).
        -- destruct (O x X) as (p2 & I2 & O2). exists p2. split; [right; exact I2 | exact O2].
      * intros x [X|X]; [apply in_app_or in X as [X|X]|]; apply in_or_app; [left; exact X | right; apply SUB; auto | right; apply SUB; auto].
Qed.
Lemma runs_loop k d w st q t : runs k d w st -> In (q, t) w ->
  exists ig, ignores (k_ignore k) ig /\ loop (mkArgs (k_skip k) ig) (k_validate k) (k_out k) d (k_inputs k) w st.
Proof.
  unfold Disk.runs. destruct (forallb _ _); [|intros [-> _] []]. destruct (match k_ignore k with Some t => arg_lintcode t | None => Some [] end) as [ig|] eqn:IG; [|intros [-> _] []].
  assert (I : ignores (k_ignore k) ig) by (unfold ignores; destruct (k_ignore k) as [x|]; [apply C61_codes; exact IG | congruence]).
  destruct (k_inputs k) as [|p ins]; [intros [-> _] []|]. intros L _. exists ig. split; [exact I | exact L].
Qed.

(** What is written to a JSON file is nothing or a whole text. *)
Lemma process_json args out d p w m e q t stem : In (path_suffix (snd p)) [utf8 ".html"; utf8 ".docx"] -> process args out d p w m e ->
  named (snd q) stem (utf8 "json") -> In (q, t) w -> t = [] \/ exists m', m = Some m' /\ t = file_text m'.
Proof.
  intros A P N I. apply accepted_name in A as (st & A).
  assert (CV : forall c w' b, convert out (drop_suffix (snd p)) c w' b -> docx_file p st -> ~ In (q, t) w').
  { intros c w' b C F I'. pose proof (convert_paths _ _ _ _ _ _ C) as FP. rewrite Forall_forall in FP. specialize (FP _ I'). cbn [fst] in FP. rewrite (drop_named _ st _ F) in FP.
    assert (NE : st <> []) by apply F.
    assert (J1 : named (st ++ utf8 ".css") st (utf8 "css")) by ext. assert (J2 : named (st ++ utf8 ".html") st (utf8 "html")) by ext.
    destruct FP as [E|E]; rewrite E in N; cbn [snd] in N; [destruct (named_unique _ _ _ _ _ N J1) as [_ ?] | destruct (named_unique _ _ _ _ _ N J2) as [_ ?]]; discriminate. }
  inversion P as [dir name r m' NS E F|dir name w' S C|dir name w' r m' S C E F]; subst; cbn [fst snd] in *.
  - destruct I as [[= _ <-]|[[= _ <-]|[]]]; eauto.
  - destruct A as [F|F]; [|exfalso; exact (not_docx (dir, name) st F S)]. exfalso. exact (CV _ _ _ C F I).
  - destruct A as [F0|F0]; [|exfalso; exact (not_docx (dir, name) st F0 S)]. apply in_app_or in I as [I|I]; [exfalso; exact (CV _ _ _ C F0 I)|].
    destruct I as [[= _ <-]|[[= _ <-]|[]]]; eauto.
Qed.
Lemma file_prefix s r m j : s ++ r = file_text m -> json_text s j -> r = [].
Proof.
  intros E J. destruct r as [|c r]; [reflexivity|]. exfalso. apply loads_iff in J.
  assert (V : jvalue (s ++ c :: r) (model_json m)) by (rewrite E; apply pretty_jvalue). unfold model_json in V.
  rewrite (object_prefix _ _ _ V) in J; discriminate.
Qed.
Lemma empty_no_json r j : ~ json_text ([] : str) j /\ (r ++ [] = r :> str).
Proof.
  split; [|apply app_nil_r]. intros (a & t & b & X & _ & _ & J). symmetry in X. apply app_eq_nil in X as [_ X]. apply app_eq_nil in X as [X _].
  destruct (jvalue_head _ _ J) as (x & y & E' & _). congruence.
Qed.
Lemma complete_finished version' args inp m : r_file (parse_spec version' args false None inp) = Some m -> says_complete (model_json m) ->
  r_end (parse_spec version' args false None inp) = Finished.
Proof.
  intros F (l & mt & x & E & I & J). pose proof (C33_complete version' args false None inp) as X. rewrite F in X. apply X.
  unfold model_json in E. injection E as <-. destruct I as [I|[I|[]]]; [|discriminate I]. apply (f_equal snd) in I. cbn [snd] in I. injection I as <-.
  unfold meta_value, jget. destruct (find _ (mo_meta m)) eqn:FD; [discriminate|]. pose proof (find_none _ _ FD _ J) as K. cbn [fst] in K. rewrite seqb_refl in K. discriminate.
Qed.
Lemma process_complete args out d p w m e : process args out d p w (Some m) e -> says_complete (model_json m) -> e = Finished.
Proof.
  intros P C. inversion P as [dir name r m' NS E F EP EW EM EN|dir name w' S C'|dir name w' r m' S C' E F EP EW EM EN]; subst; exact (complete_finished _ _ _ _ F C).
Qed.
(** After an interruption, a JSON file is the old one, or it has no JSON text in it, or it is
    a whole output of the run; and if it has a list of lint entries, it is the JSON file for what
    an HTML input says, or what the HTML file written for a docx input says. *)
Theorem C84_json k d w st d' q stem :
  runs k d w st -> interrupted k w d d' -> named (snd q) stem (utf8 "json") ->
  d' q = d q \/ exists s, d' q = Some (Text s) /\ forall j, json_text s j -> In (q, s) w
    /\ (says_complete j ->
        exists p ig src root, In p (k_inputs k) /\ ignores (k_ignore k) ig
          /\ (html_file p stem /\ (d p = Some (Text src) \/ In (p, src) w) \/ docx_file p stem /\ In ((k_out k, stem ++ utf8 ".html"), src) w)
          /\ read src = Tree root /\ json_for version (mkArgs (k_skip k) ig) root s).
Proof.
  intros R H N. assert (NL : q <> log_path k) by (intros ->; apply log_named in N; discriminate).
  destruct (interrupted_cases _ _ _ _ _ H NL) as [E|(s & r & I & E)]; [left; exact E|]. right. exists s. split; [exact E|]. intros j J.
  destruct (runs_loop _ _ _ _ _ _ R I) as (ig & IG & L). destruct (loop_write _ _ _ _ _ _ _ _ _ L I) as (p & w0 & wp & m & e & IP & A & P & IW & _ & SUB).
  destruct (process_json _ _ _ _ _ _ _ _ _ _ A P N IW) as [T|(m' & -> & T)].
  { apply app_eq_nil in T as [-> _]. destruct (proj1 (empty_no_json [] j) J). }
  pose proof (file_prefix _ _ _ _ T J) as R0. rewrite R0, app_nil_r in I, T, IW. split; [exact I|]. intros C. subst s.
  rewrite (proj1 (proj2 (C71_text m')) j J) in C. rewrite (process_complete _ _ _ _ _ _ _ P C) in P.
  pose proof (process_paths _ _ _ _ _ _ _ _ _ A P) as F. rewrite Forall_forall in F. specialize (F _ IW). cbn [fst] in F. apply output_named in F as (EO & st' & HS & F).
  assert (st' = stem) as -> by (destruct F as [F|(_ & [F|F])]; destruct (named_unique _ _ _ _ _ F N) as [X _]; exact X).
  destruct HS as [DF|HF].
  - destruct (process_docx _ _ _ _ _ _ _ DF P) as (pk & doc & h & us & html & css & -> & _ & _ & _ & [root RT] & JF).
    exists p, ig, html, root. split; [exact IP|]. split; [exact IG|]. split; [|split; [exact RT | exact (JF root RT)]]. right. split; [exact DF|]. apply SUB. right. right. left. reflexivity.
  - destruct (process_html _ _ _ _ _ _ _ HF P) as (_ & src & DP & [root RT] & JF). exists p, ig, src, root. split; [exact IP|]. split; [exact IG|].
    split; [|split; [exact RT | exact (JF root RT)]]. left. split; [exact HF|]. destruct (dafter_cases w0 d p) as [E0|(t & I0 & E0)]; [left; rewrite <- E0; exact DP|].
    right. rewrite E0 in DP. injection DP as ->. apply SUB. auto.
Qed.


(** What is written to the HTML file of a docx file, and what was not written of it. *)
Lemma space_no_lt r a b : r = a ++ 60 :: b -> ~ spaces r.
Proof. intros -> F. unfold spaces in F. rewrite Forall_forall in F. specialize (F 60 (in_elt _ _ _)). unfold xml_space in F. lia. Qed.
Lemma writes_both a b s t : Render.writes a s -> Render.writes b t -> Render.writes (a ++ b) (s ++ t).
Proof.
  intros H W. induction H as [|w ts s0 F H IH|tag at_ w ts s0 F H IH|t0 ts s0 T H IH]; cbn [app]; [exact W| | |].
  - rewrite <- app_assoc. apply wr_nl; assumption.
  - replace (60 :: (tag ++ flat_map show_attr at_ ++ w ++ 47 :: 62 :: s0) ++ t) with ([60] ++ tag ++ flat_map show_attr at_ ++ w ++ [47; 62] ++ s0 ++ t)
      by (cbn [app]; repeat (progress (rewrite <- ?app_assoc; cbn [app])); reflexivity). apply wr_void; assumption.
  - rewrite <- app_assoc. apply wr_tok; assumption.
Qed.
Lemma closing_written : Render.writes [TClose (utf8 "body"); TNl; TClose (utf8 "html"); TNl] (show (TClose (utf8 "body")) ++ 10 :: [] ++ show (TClose (utf8 "html")) ++ 10 :: [] ++ []).
Proof. apply wr_tok; [exact Logic.I|]. apply wr_nl; [constructor|]. apply wr_tok; [exact Logic.I|]. apply wr_nl; [constructor|]. constructor. Qed.
Lemma process_html_text args out d p w m e t stem : docx_file p stem -> process args out d p w m e -> In ((out, stem ++ utf8 ".html"), t) w ->
  exists pk doc h, d p = Some (Package pk) /\ open_docx pk = DOk (doc, h)
    /\ ((exists us css, generated doc version stem (header_title h) (header_revision h) us t css)
        \/ (usual doc version stem (header_title h) (header_revision h) -> exists r root, ~ spaces r /\ (forall a, ~ spaces (a ++ r)) /\ xdocument (t ++ r) root)).
Proof.
  intros N P I. assert (NE : stem <> []) by apply N.
  assert (JC : named (stem ++ utf8 ".css") stem (utf8 "css")) by ext. assert (JH : named (stem ++ utf8 ".html") stem (utf8 "html")) by ext.
  assert (JJ : named (stem ++ utf8 ".json") stem (utf8 "json")) by ext.
  assert (DIFF : forall e1 s1 s2 t1 t2, named s1 stem e1 -> named s2 stem (utf8 "html") -> e1 <> utf8 "html" -> ((out, s1), t1) <> ((out, s2), t2) :> path * str).
  { intros e1 s1 s2 t1 t2 N1 N2 X E. apply (f_equal fst) in E. apply (f_equal snd) in E. cbn [fst snd] in E. subst s2. destruct (named_unique _ _ _ _ _ N1 N2). congruence. }
  assert (CV : forall w' b, convert out stem (d p) w' b -> In ((out, stem ++ utf8 ".html"), t) w' ->
    exists pk doc h, d p = Some (Package pk) /\ open_docx pk = DOk (doc, h)
    /\ ((exists us css, generated doc version stem (header_title h) (header_revision h) us t css)
        \/ (usual doc version stem (header_title h) (header_revision h) -> exists r root, ~ spaces r /\ (forall a, ~ spaces (a ++ r)) /\ xdocument (t ++ r) root))).
  { intros w' b C I'. remember (d p) as c0 eqn:EC. destruct C as [c X|pk X|pk doc h OP X|pk doc h a tb b' us s ts c html css OP WT PT PF RA WH LW|pk doc h us ts c html css OP PD HD W L]; try destruct I' as [].
    - exact (match DIFF _ _ _ _ _ JC JH ltac:(discriminate) H with end).
    - destruct H as [H|[]]. injection H as <-. exists pk, doc, h. split; [reflexivity|]. split; [exact OP|]. right. intros (UT & UH & _).
      assert (FB : w_fine (dx_body doc)) by (intros x tx IX; apply UT; apply node_has; exact IX).
      assert (FA : Forall w_fine a) by (pose proof (tables_fine _ FB) as FT; rewrite WT in FT; apply Forall_app in FT; apply FT).
      destruct (document_file us version stem (header_title h) (header_revision h)
        (html_head version stem (header_title h) (header_revision h) ++ [TOpen (utf8 "body") []; TNl] ++ ts ++ [TClose (utf8 "body"); TNl; TClose (utf8 "html"); TNl]) c
        (html ++ (show (TClose (utf8 "body")) ++ 10 :: [] ++ show (TClose (utf8 "html")) ++ 10 :: [] ++ []))) as (root & XD & _).
      + exact (parse_tables_fine doc a FA _ _ _ PT).
      + exact (parse_tables_safe doc a _ _ _ PT).
      + exact UH.
      + unfold html_doc. rewrite RA. reflexivity.
      + pose proof (writes_both _ _ _ _ WH closing_written) as WB. rewrite <- !app_assoc in WB. exact WB.
      + eexists. exists root. split; [|split; [|exact XD]]; [|intros z]; eapply space_no_lt; cbn [show app]; [|rewrite <- app_assoc]; try reflexivity. instantiate (2 := []). reflexivity.
    - exact (match DIFF _ _ _ _ _ JC JH ltac:(discriminate) H with end).
    - destruct H as [H|[]]. injection H as <-. exists pk, doc, h. split; [reflexivity|]. split; [exact OP|]. left. exists us, css, ts, c. auto. }
  inversion P as [dir name r m' NS E F EP EW EM EN|dir name w' S C|dir name w' r m' S C E F EP EW EM EN]; subst.
  - exfalso. apply NS. apply suffix_docx. exists stem. exact N.
  - rewrite (drop_named name stem _ N) in C. exact (CV _ _ C I).
  - rewrite (drop_named name stem _ N) in C. destruct (html_name_of (dir, name) stem N) as [_ JN]. cbn [snd] in JN. rewrite JN in I.
    apply in_app_or in I as [I|I]; [exact (CV _ _ C I)|]. exfalso.
    destruct I as [X|[X|[]]]; exact (DIFF _ _ _ _ _ JJ JH ltac:(discriminate) X).
Qed.
(** After an interruption, the HTML file of a docx input is the old one, or it is not well-formed,
    or it is the whole output for the document but for white space at its end. *)
Theorem C84_html k d w st d' q stem :
  runs k d w st -> interrupted k w d d' -> named (snd q) stem (utf8 "html") ->
  (forall p pk doc title rev, In p (k_inputs k) -> docx_file p stem -> d p = Some (Package pk) -> holds_document pk doc title rev ->
     usual doc version stem title rev) ->
  d' q = d q \/ exists s, d' q = Some (Text s)
    /\ forall root, xdocument s root ->
       exists p pk doc title rev us css r, In p (k_inputs k) /\ docx_file p stem /\ d p = Some (Package pk) /\ holds_document pk doc title rev
         /\ spaces r /\ generated doc version stem title rev us (s ++ r) css /\ xdocument (s ++ r) root.
Proof.
  intros R H N U. assert (NL : q <> log_path k) by (intros ->; apply log_named in N; discriminate).
  destruct (interrupted_cases _ _ _ _ _ H NL) as [E|(s & r & I & E)]; [left; exact E|]. right. exists s. split; [exact E|]. intros root X.
  destruct (runs_loop _ _ _ _ _ _ R I) as (ig & _ & L). destruct (loop_write _ _ _ _ _ _ _ _ _ L I) as (p & w0 & wp & m & e & IP & A & P & IW & O & _).
  pose proof (process_paths _ _ _ _ _ _ _ _ _ A P) as F. rewrite Forall_forall in F. specialize (F _ IW). cbn [fst] in F.
  pose proof F as F2. apply output_named in F2 as (EO & st' & _ & F2).
  destruct F2 as [F2|(DF & [F2|F2])]; destruct (named_unique _ _ _ _ _ N F2) as [ES EE]; try discriminate. subst st'.
  assert (Q : q = (k_out k, stem ++ utf8 ".html")) by (destruct q as [qd qn]; cbn [fst snd] in *; subst qd; f_equal; destruct N as [E' _]; exact E'). rewrite Q in IW.
  destruct (process_html_text _ _ _ _ _ _ _ _ _ DF P IW) as (pk & doc & h & DP & OP & G).
  rewrite dafter_other in DP.
  2: { intros IX. apply in_map_iff in IX as (x & EX & IX). destruct (O x IX) as (p' & _ & OX). rewrite EX in OX. apply output_named in OX as (_ & sx & _ & OX).
       unfold docx_file in DF. destruct OX as [OX|(_ & [OX|OX])]; destruct (named_unique _ _ _ _ _ DF OX) as [_ ?]; discriminate. }
  pose proof (open_holds _ _ _ OP) as HD. pose proof (U _ _ _ _ _ IP DF DP HD) as US. destruct G as [(us & css & G)|G].
  - destruct G as (ts & c & PD & HD' & W & LW). pose proof US as (UT & UH & UC).
    destruct (C73_file doc us version stem (header_title h) (header_revision h) ts c (s ++ r)) as (root' & XD & _); auto.
    { intros x t IX. apply UT. apply node_has. exact IX. }
    destruct (xdocument_prefix _ _ _ _ X XD) as [SP ->]. exists p, pk, doc, (header_title h), (header_revision h), us, css, r.
    split; [exact IP|]. split; [exact DF|]. split; [exact DP|]. split; [exact HD|]. split; [exact SP|]. split; [exists ts, c; auto | exact XD].
  - destruct (G US) as (r2 & root2 & _ & NS & XD). rewrite <- app_assoc in XD. destruct (xdocument_prefix _ _ _ _ X XD) as [SP _]. destruct (NS r SP).
Qed.

(** What a run writes depends on the contents of its inputs only: a file left by an earlier run
    changes nothing. *)
Lemma convert_written out stem c w : convert out stem c w false -> In (out, stem ++ utf8 ".html") (map fst w).
Proof. intros C. inversion C; subst. right. left. reflexivity. Qed.
Lemma dafter_written w d d' q : In q (map fst w) -> disk_after w d q = disk_after w d' q.
Proof. intros I. destruct (last_write w q) as [N|(a & s & b & -> & N)]; [contradiction | rewrite !dafter_last; auto]. Qed.
Lemma process_again args out d d' p w m e : In (path_suffix (snd p)) [utf8 ".html"; utf8 ".docx"] -> d' p = d p -> process args out d p w m e -> process args out d' p w m e.
Proof.
  intros A E P. inversion P as [dir name r m' NS ER F|dir name w' S C|dir name w' r m' S C ER F]; subst.
  - rewrite (dafter_agree [((out, json_name name), [])] d d' (dir, name)) in F by (symmetry; exact E).
    rewrite (dafter_agree [((out, json_name name), [])] d d' (dir, name)) by (symmetry; exact E). eapply pr_html; eauto.
  - apply pr_raised; [exact S|]. rewrite E. exact C.
  - apply accepted_name in A as (stem & [N|N]); [|exfalso; exact (not_docx (dir, name) stem N S)].
    destruct (html_name_of (dir, name) stem N) as [HN _]. cbn [snd] in HN.
    assert (X : disk_after (w' ++ [((out, json_name (html_name name)), [])]) d (out, html_name name) = disk_after (w' ++ [((out, json_name (html_name name)), [])]) d' (out, html_name name)).
    { apply dafter_written. rewrite map_app. apply in_or_app. left. rewrite HN. apply (convert_written out stem (d (dir, name))). rewrite <- (drop_named name stem _ N). exact C. }
    rewrite X in F. rewrite X. eapply pr_docx; eauto. rewrite E. exact C.
Qed.
Lemma loop_again args validate out d ins w st : loop args validate out d ins w st -> forall d', (forall p, In p ins -> d' p = d p) -> loop args validate out d' ins w st.
Proof.
  induction 1 as [d|d p ins N|d p ins w m e A P W|d p ins w m e w' st A P W _ IH]; intros d' E.
  - constructor.
  - constructor. exact N.
  - eapply lp_fails; eauto. apply (process_again _ _ d); auto. apply E. left. reflexivity.
  - eapply lp_next; eauto. + apply (process_again _ _ d); auto. apply E. left. reflexivity.
    + apply IH. intros q I. apply dafter_agree. apply E. right. exact I.
Qed.
Lemma runs_again k d d' w st : (forall p, In p (k_inputs k) -> d' p = d p) -> runs k d w st -> runs k d' w st.
Proof.
  unfold Disk.runs. intros E.
  replace (forallb (found d') (k_inputs k)) with (forallb (found d) (k_inputs k)).
  2: { clear - E. induction (k_inputs k) as [|p ins IH]; [reflexivity|]. cbn [forallb]. unfold found at 1 3. rewrite (E p) by (left; reflexivity). f_equal. apply IH. intros q I. apply E. right. exact I. }
  destruct (forallb _ _); [|auto]. destruct (match k_ignore k with Some t => arg_lintcode t | None => Some [] end); [|auto].
  destruct (k_inputs k) as [|p ins]; [auto|]. intros L. apply (loop_again _ _ _ _ _ _ _ L). exact E.
Qed.
(** If the program is run again after it was interrupted (or failed), it writes and gives what it
    would have at first; and so the files written are those of a run without interruption. *)
Theorem C84_again k d w0 st0 d1 :
  runs k d w0 st0 -> interrupted k w0 d d1 ->
  (forall p, In p (k_inputs k) -> exists stem, has_stem p stem) ->
  (forall p, In p (k_inputs k) -> ~ overlap (k_out k) (k_inputs k) p) ->
  (forall w st, runs k d1 w st <-> runs k d w st)
  /\ forall w st d2 d2' q, runs k d w st -> leaves k w d d2 -> leaves k w d1 d2' -> q <> log_path k -> In q (map fst w) -> d2' q = d2 q.
Proof.
  intros R H HS NO.
  assert (E : forall p, In p (k_inputs k) -> d1 p = d p).
  { intros p I. destruct (HS p I) as (stem & [N|N]); [exact (C82_docx _ _ _ _ _ _ _ R H N) | exact (C82_html _ _ _ _ _ _ _ R H N (NO p I))]. }
  split.
  - intros w st. split; intros X; (eapply runs_again; [|exact X]); intros p I; [symmetry|]; apply E; exact I.
  - intros w st d2 d2' q _ L L' NL I. rewrite L, L' by exact NL. apply dafter_written. exact I.
Qed.
End Run.
Print Assumptions C82_frame.
Print Assumptions C82_docx.
Print Assumptions C82_html.
Print Assumptions C82_model.
Print Assumptions C83_docx.
Print Assumptions C83_html.
Print Assumptions C83_failure.
Print Assumptions C83_one.
Print Assumptions C84_json.
Print Assumptions C84_html.
Print Assumptions C84_again.
