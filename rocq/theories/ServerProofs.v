(** Facts about the model of the web server. *)
From Coq Require Import NArith ZArith List Bool String Lia.
From Verif Require Import PyStr PyStrFacts Xml Json Lint Extract Document Output Cli SpecText SpecCli Prop_Cli
  SpecOutput Prop_Output Server SpecServer.
Import ListNotations.
Local Open Scope list_scope.

Lemma replace_nth_length {A} i (x : A) l : List.length (replace_nth i x l) = List.length l.
Proof. revert i. induction l as [|a l IH]; intros [|i]; cbn; auto. Qed.
Lemma replace_nth_eq {A} i (x : A) l : (i < List.length l)%nat -> nth_error (replace_nth i x l) i = Some x.
Proof. revert i. induction l as [|a l IH]; intros [|i] L; cbn in *; try lia; [reflexivity|]. apply IH. lia. Qed.
Lemma replace_nth_neq {A} i j (x : A) l : i <> j -> nth_error (replace_nth i x l) j = nth_error l j.
Proof. revert i j. induction l as [|a l IH]; intros [|i] [|j] L; cbn in *; try reflexivity; try lia. apply IH. lia. Qed.

Lemma with_suffix_named name stem ext sfx : named name stem ext -> with_suffix name sfx = stem ++ sfx.
Proof.
  intros H. unfold with_suffix. rewrite (suffix_named _ _ _ H). destruct H as (-> & _). cbn [List.length].
  rewrite app_length. cbn [List.length]. replace (_ - _)%nat with (List.length stem) by lia.
  rewrite firstn_app, firstn_all, Nat.sub_diag. cbn [firstn]. rewrite app_nil_r. reflexivity.
Qed.

Lemma named_json stem : stem <> [] -> named (stem ++ utf8 ".json") stem (utf8 "json").
Proof. intros H. split; [reflexivity|]. split; [exact H|]. split; [discriminate|]. vm_compute. intuition discriminate. Qed.
Lemma named_html stem : stem <> [] -> named (stem ++ utf8 ".html") stem (utf8 "html").
Proof. intros H. split; [reflexivity|]. split; [exact H|]. split; [discriminate|]. vm_compute. intuition discriminate. Qed.

Lemma no_name_suffix name : (~ exists s ext, named name s ext) -> path_suffix name = [].
Proof.
  intros H. destruct (path_suffix name) as [|x l] eqn:E; [reflexivity|]. exfalso.
  destruct (named_suffix _ _ E ltac:(discriminate)) as (s & ext & _ & Nm). apply H. eauto.
Qed.
Lemma suffix_no_name name : path_suffix name = [] -> ~ exists s ext, named name s ext.
Proof. intros H (s & ext & Nm). rewrite (suffix_named _ _ _ Nm) in H. discriminate. Qed.

Lemma stem_drop u s : has_stem u s <-> s = drop_suffix (u_name u).
Proof.
  unfold has_stem. split.
  - intros [(ext & Nm)|(-> & N)]; [symmetry; exact (drop_named _ _ _ Nm)|].
    unfold drop_suffix. rewrite (no_name_suffix _ N). reflexivity.
  - intros ->. destruct (path_suffix (u_name u)) as [|x l] eqn:E.
    + right. split; [unfold drop_suffix; rewrite E; reflexivity | exact (suffix_no_name _ E)].
    + left. destruct (named_suffix _ _ E ltac:(discriminate)) as (s & ext & _ & Nm). exists ext.
      rewrite (drop_named _ _ _ Nm). exact Nm.
Qed.

Lemma json_ne_html a b : a ++ utf8 ".json" <> b ++ utf8 ".html".
Proof.
  intros E. apply (f_equal (@rev N)) in E. rewrite !rev_app_distr in E.
  change (rev (utf8 ".json")) with [110;111;115;106;46]%N in E.
  change (rev (utf8 ".html")) with [108;109;116;104;46]%N in E. cbn [app] in E. discriminate.
Qed.

Section S.
Variable version : str.
Variable md5 : bytes -> str.
Variable decode : bytes -> found.

Notation run_of := (run_of version decode).
Notation publish := (publish version md5 decode).
Notation temp_file := (temp_file version decode).
Notation upload_file := (upload_file decode).
Notation step := (step version md5 decode).
Notation succeeds := (succeeds version decode).

Definition is_docx (u : upload) : bool := seqb (path_suffix (u_name u)) (utf8 ".docx").
Lemma is_docx_named u : is_docx u = true <-> exists s, named (u_name u) s (utf8 "docx").
Proof.
  unfold is_docx. rewrite seqb_eq. split.
  - intros E. destruct (named_suffix _ _ E ltac:(discriminate)) as (s & ext & Q & Nm). injection Q as Q. subst ext. eauto.
  - intros (s & Nm). exact (suffix_named _ _ _ Nm).
Qed.

Lemma run_processing u r : processing version decode u r <-> r = run_of u.
Proof. unfold processing, Server.run_of, as_input. reflexivity. Qed.

Lemma succeeds_run u d : succeeds u d <-> r_end (run_of u) = Finished /\ r_file (run_of u) = Some d.
Proof.
  unfold SpecServer.succeeds. split.
  - intros (r & P & E & F). apply run_processing in P. rewrite P in E, F. auto.
  - intros (E & F). exists (run_of u). split; [apply run_processing; reflexivity | auto].
Qed.

Lemma run_kind u v : u_bytes u = u_bytes v -> is_docx u = is_docx v -> run_of u = run_of v.
Proof.
  intros B K. unfold Server.run_of, as_input, Server.upload_file. cbn [f_name f_html f_total f_reports f_raised f_made].
  unfold is_docx in K. rewrite K, B. reflexivity.
Qed.

Lemma finished_file u : r_end (run_of u) = Finished -> exists d, r_file (run_of u) = Some d.
Proof.
  unfold Server.run_of, parse_spec. destruct (as_input _) as [s|t is ra s].
  - destruct (json_stage _ _ _ _ _) as [[rs d] e]. cbn. eauto.
  - destruct (html_reports _ _ _) as [rs [w|]]; [|discriminate]. destruct ra; [discriminate|].
    destruct (json_stage _ _ _ _ _) as [[rs' d] e]. cbn. eauto.
Qed.

(** The names of the files. *)
Definition json_of (u : upload) : str := json_name (html_file (upload_file u)).
Lemma json_of_stem u : json_of u = drop_suffix (u_name u) ++ utf8 ".json".
Proof.
  unfold json_of. destruct (path_suffix (u_name u)) as [|x l] eqn:E.
  - unfold json_name, html_file. cbn [f_name Server.upload_file]. rewrite E. reflexivity.
  - destruct (named_suffix _ _ E ltac:(discriminate)) as (s & ext & _ & Nm).
    rewrite (output_named (upload_file u) s ext Nm), (drop_named _ _ _ Nm). reflexivity.
Qed.

Lemma json_same u v : json_of u = json_of v -> exists s, has_stem u s /\ has_stem v s.
Proof.
  rewrite !json_of_stem. intros E. apply app_inv_tail in E. exists (drop_suffix (u_name u)).
  rewrite !stem_drop. auto.
Qed.

Lemma temp_json u d : r_file (run_of u) = Some d -> temp_file u (json_of u) = Some (CJson d).
Proof. intros F. unfold Server.temp_file. fold (json_of u). rewrite seqb_refl, F. reflexivity. Qed.

Lemma document_html u stem : document u stem ->
  json_of u = stem ++ utf8 ".json" /\ with_suffix (json_of u) (utf8 ".html") = stem ++ utf8 ".html"
  /\ exists c, html_document u c /\ temp_file u (stem ++ utf8 ".html") = Some c.
Proof.
  intros D. assert (Ne : stem <> []) by (destruct D as [D|D]; apply D).
  assert (J : json_of u = stem ++ utf8 ".json").
  { rewrite json_of_stem. f_equal. destruct D as [D|D]; exact (drop_named _ _ _ D). }
  split; [exact J|]. split; [rewrite J; exact (with_suffix_named _ _ _ _ (named_json _ Ne))|].
  unfold Server.temp_file. fold (json_of u). rewrite J.
  destruct (seqb_spec (stem ++ utf8 ".html") (stem ++ utf8 ".json")) as [E|_]; [symmetry in E; destruct (json_ne_html _ _ E)|].
  destruct D as [D|D].
  - exists (CBytes (u_bytes u)). split; [exists stem; auto|]. unfold html_file. cbn [f_name Server.upload_file].
    rewrite (suffix_named _ _ _ D). change (seqb (46%N :: utf8 "html") (utf8 ".docx")) with false. cbv iota.
    destruct D as (-> & _). rewrite seqb_refl. reflexivity.
  - exists (CMade (u_bytes u)). split; [exists stem; auto|]. unfold html_file. cbn [f_name Server.upload_file].
    rewrite (suffix_named _ _ _ D). change (seqb (46%N :: utf8 "docx") (utf8 ".docx")) with true. cbv iota.
    unfold html_name. rewrite (drop_named _ _ _ D), seqb_refl. reflexivity.
Qed.

Lemma other_html u : (~ exists stem, document u stem) -> temp_file u (with_suffix (json_of u) (utf8 ".html")) = None.
Proof.
  intros D. unfold Server.temp_file. fold (json_of u).
  destruct (path_suffix (u_name u)) as [|x l] eqn:E.
  - rewrite json_of_stem. unfold drop_suffix. rewrite E. cbn [List.length app].
    change (with_suffix (utf8 ".json") (utf8 ".html")) with (utf8 ".json.html").
    change (seqb (utf8 ".json.html") (utf8 ".json")) with false. cbv iota.
    unfold html_file. cbn [f_name Server.upload_file]. rewrite E. change (seqb [] (utf8 ".docx")) with false. cbv iota.
    destruct (seqb_spec (utf8 ".json.html") (u_name u)) as [Q|_]; [|reflexivity].
    rewrite <- Q in E. vm_compute in E. discriminate.
  - destruct (named_suffix _ _ E ltac:(discriminate)) as (s & ext & Q & Nm).
    rewrite json_of_stem, (drop_named _ _ _ Nm).
    rewrite (with_suffix_named _ _ _ _ (named_json s (proj1 (proj2 Nm)))).
    destruct (seqb_spec (s ++ utf8 ".html") (s ++ utf8 ".json")) as [R|_]; [symmetry in R; destruct (json_ne_html _ _ R)|].
    unfold html_file. cbn [f_name Server.upload_file]. rewrite E.
    destruct (seqb_spec (x :: l) (utf8 ".docx")) as [R|_].
    { exfalso. apply D. exists s. right. rewrite R in Q. injection Q as <-. exact Nm. }
    destruct (seqb_spec (s ++ utf8 ".html") (u_name u)) as [R|_]; [|reflexivity].
    exfalso. apply D. exists s. left. rewrite <- R. apply named_html. apply Nm.
Qed.

Lemma document_dec u : (exists stem, document u stem) \/ ~ exists stem, document u stem.
Proof.
  pose proof (accepted_suffix (upload_file u)) as A. unfold accepted in A. cbn [f_name Server.upload_file] in A.
  unfold document. destruct (smem (path_suffix (u_name u)) _); [left; apply A; reflexivity | right; rewrite A; discriminate].
Qed.

(** What happens at the end of the reports. *)
Lemma publish_cases u fs lk :
  (exists e, r_end (run_of u) = Failed e) /\ publish u fs lk = (fs, lk, false)
  \/ (exists d, succeeds u d /\ (~ exists stem, document u stem) /\ publish u fs lk = (put (json_of u) (CJson d) fs, lk, false))
  \/ (exists d stem c, succeeds u d /\ document u stem /\ html_document u c /\ json_of u = stem ++ utf8 ".json"
      /\ publish u fs lk = (put (stem ++ utf8 ".html") c (put (json_of u) (CJson d) fs), put (md5 (u_bytes u)) (json_of u) lk, true)).
Proof.
  unfold Server.publish. destruct (r_end (run_of u)) as [|e] eqn:E; [right|left; split; [eauto|reflexivity]].
  destruct (finished_file u E) as (d & F). assert (SU : succeeds u d) by (apply succeeds_run; auto).
  fold (json_of u). cbv zeta. rewrite (temp_json _ _ F).
  destruct (document_dec u) as [(stem & D)|D].
  - right. destruct (document_html u stem D) as (J & W & c & H & T). exists d, stem, c.
    rewrite W, T. auto.
  - left. exists d. rewrite (other_html u D). auto.
Qed.

(** ** Histories *)

Notation run_server := (run_server version md5 decode).
Notation state_after := (state_after version md5 decode).
Notation events h := (snd (run_server init h)).

Lemma run_snoc s h a : run_server s (h ++ [a]) =
  (fst (step (fst (run_server s h)) a), snd (run_server s h) ++ snd (step (fst (run_server s h)) a)).
Proof.
  unfold Server.run_server. rewrite fold_left_app. cbn [fold_left].
  destruct (step _ a) as [s' es]. reflexivity.
Qed.
Lemma state_snoc h a : state_after (h ++ [a]) = fst (step (state_after h) a).
Proof. unfold SpecServer.state_after. rewrite run_snoc. reflexivity. Qed.
Lemma events_snoc h a : events (h ++ [a]) = events h ++ snd (step (state_after h) a).
Proof. rewrite run_snoc. reflexivity. Qed.

Definition added (a : act) : list upload := match a with Post (Some u) true => [u] | _ => [] end.
Lemma uploads_app h h' : accepted_uploads (h ++ h') = accepted_uploads h ++ accepted_uploads h'.
Proof. induction h as [|[[u|] []|i|i] h IH]; cbn [accepted_uploads app]; rewrite ?IH; reflexivity. Qed.
Lemma uploads_snoc h a : accepted_uploads (h ++ [a]) = accepted_uploads h ++ added a.
Proof. rewrite uploads_app. destruct a as [[u|] []|i|i]; reflexivity. Qed.

(** The client of stream [i] has gone away. *)
Fixpoint gone (i n : nat) (h : list act) : bool :=
  match h with
  | [] => false
  | Post (Some _) true :: r => gone i (S n) r
  | Post _ _ :: r | Pull _ :: r => gone i n r
  | Close j :: r => if Nat.eqb j i && Nat.ltb i n then true else gone i n r
  end.
Lemma gone_snoc i h a : forall n, gone i n (h ++ [a]) =
  gone i n h || match a with Close j => Nat.eqb j i && Nat.ltb i (n + List.length (accepted_uploads h)) | _ => false end.
Proof.
  induction h as [|b h IH]; intros n; cbn [app gone accepted_uploads List.length].
  - rewrite Nat.add_0_r. destruct a as [[u|] []|j|j]; cbn [gone]; try reflexivity. destruct (_ && _); reflexivity.
  - destruct b as [[u|] []|j|j]; cbn [gone accepted_uploads List.length]; try apply IH.
    + rewrite IH. replace (S n + List.length (accepted_uploads h))%nat with (n + S (List.length (accepted_uploads h)))%nat by lia. reflexivity.
    + destruct (_ && _); [reflexivity|]. apply IH.
Qed.
Lemma asked_snoc i h a : forall n, asked i n (h ++ [a]) =
  if negb (gone i n h) && match a with Pull j => Nat.eqb j i && Nat.ltb i (n + List.length (accepted_uploads h)) | _ => false end
  then S (asked i n h) else asked i n h.
Proof.
  induction h as [|b h IH]; intros n; cbn [app gone asked accepted_uploads List.length].
  - rewrite Nat.add_0_r. destruct a as [[u|] []|j|j]; cbn [asked andb negb]; try reflexivity; destruct (_ && _); reflexivity.
  - destruct b as [[u|] []|j|j]; cbn [gone asked accepted_uploads List.length]; try apply IH.
    + rewrite IH. replace (S n + List.length (accepted_uploads h))%nat with (n + S (List.length (accepted_uploads h)))%nat by lia. reflexivity.
    + destruct (Nat.eqb j i && Nat.ltb i n); rewrite IH; [|reflexivity]. destruct (_ && _); reflexivity.
    + destruct (Nat.eqb j i && Nat.ltb i n); [reflexivity|]. apply IH.
Qed.
Lemma gone_none i h : forall n, (n + List.length (accepted_uploads h) <= i)%nat -> gone i n h = false.
Proof.
  induction h as [|b h IH]; intros n L; cbn [gone]; [reflexivity|]. cbn [accepted_uploads] in L.
  destruct b as [[u|] []|j|j]; cbn [List.length] in L; try (apply IH; lia).
  replace (Nat.ltb i n) with false by (symmetry; apply Nat.ltb_ge; lia). rewrite andb_false_r. apply IH. lia.
Qed.
Lemma asked_none i h : forall n, (n + List.length (accepted_uploads h) <= i)%nat -> asked i n h = O.
Proof.
  induction h as [|b h IH]; intros n L; cbn [asked]; [reflexivity|]. cbn [accepted_uploads] in L.
  destruct b as [[u|] []|j|j]; cbn [List.length] in L; try (apply IH; lia);
  replace (Nat.ltb i n) with false by (symmetry; apply Nat.ltb_ge; lia); rewrite andb_false_r; apply IH; lia.
Qed.

(** Does the upload get a report? *)
Definition okb (u : upload) : bool :=
  match r_end (run_of u) with
  | Finished => smem (path_suffix (u_name u)) [utf8 ".html"; utf8 ".docx"]
  | Failed _ => false
  end.
Lemma okb_iff u : okb u = true <-> exists d stem, succeeds u d /\ document u stem.
Proof.
  unfold okb. pose proof (accepted_suffix (upload_file u)) as A. unfold accepted in A. cbn [f_name Server.upload_file] in A.
  destruct (r_end (run_of u)) eqn:E.
  - rewrite <- A. split.
    + intros (stem & D). destruct (finished_file u E) as (d & F). exists d, stem. split; [apply succeeds_run; auto | exact D].
    + intros (d & stem & _ & D). exists stem. exact D.
  - split; [discriminate|]. intros (d & stem & SU & _). apply succeeds_run in SU as [SU _]. rewrite E in SU. discriminate.
Qed.
Lemma publish_ok u fs lk : snd (publish u fs lk) = okb u.
Proof.
  destruct (okb u) eqn:O.
  - apply okb_iff in O as (d & stem & SU & D). destruct (publish_cases u fs lk) as [((e & E) & _)|[(d' & _ & N & _)|(d' & s' & c & _ & _ & _ & _ & ->)]].
    + apply succeeds_run in SU as [SU _]. rewrite E in SU. discriminate.
    + destruct N. eauto.
    + reflexivity.
  - destruct (publish_cases u fs lk) as [(_ & ->)|[(d' & _ & N & ->)|(d' & s' & c & SU & D & _)]]; try reflexivity.
    assert (okb u = true) by (apply okb_iff; eauto). congruence.
Qed.

(** The whole stream of an upload; its state after [k] requests. *)
Definition stream (u : upload) : list sevent :=
  map Progress (r_reports (run_of u)) ++ if okb u then [Completed (md5 (u_bytes u))] else [].
Definition session_after (u : upload) (k : nat) : session :=
  let rs := r_reports (run_of u) in
  if Nat.leb k (List.length rs) then Running u (skipn k rs)
  else if Nat.eqb k (S (List.length rs)) && okb u then Announced else Ended.

Lemma skipn_cons {A} k (l : list A) : (k < List.length l)%nat -> exists x, nth_error l k = Some x /\ skipn k l = x :: skipn (S k) l.
Proof.
  revert k. induction l as [|a l IH]; intros k L; [cbn in L; lia|]. destruct k as [|k]; [exists a; auto|].
  cbn in L. destruct (IH k ltac:(lia)) as (x & N & E). exists x. split; [exact N|]. cbn [skipn]. exact E.
Qed.
Lemma firstn_snoc {A} k (l : list A) x : nth_error l k = Some x -> firstn (S k) l = firstn k l ++ [x].
Proof.
  revert k. induction l as [|a l IH]; intros [|k] N; try discriminate.
  - injection N as ->. reflexivity.
  - cbn [firstn app]. f_equal. apply IH. exact N.
Qed.

Lemma events_of_app i a b : events_of i (a ++ b) = events_of i a ++ events_of i b.
Proof. unfold events_of. rewrite filter_app, map_app. reflexivity. Qed.
Lemma events_of_one i j e : events_of i [(j, e)] = if Nat.eqb j i then [e] else [].
Proof. unfold events_of. cbn [filter fst]. destruct (Nat.eqb j i); reflexivity. Qed.

(** Every step delivers at most an event of its own stream. *)
Lemma step_pull s i u k : nth_error (s_sessions s) i = Some (session_after u k) ->
  nth_error (s_sessions (fst (step s (Pull i)))) i = Some (session_after u (S k))
  /\ map snd (snd (step s (Pull i))) = match nth_error (stream u) k with Some e => [e] | None => [] end
  /\ Forall (fun p => fst p = i) (snd (step s (Pull i))).
Proof.
  intros N. assert (L : (i < List.length (s_sessions s))%nat) by (apply nth_error_Some; congruence).
  set (rs := r_reports (run_of u)).
  destruct (Nat.leb_spec k (List.length rs)) as [Le|Gt].
  - assert (SA : session_after u k = Running u (skipn k rs)).
    { unfold session_after. fold rs. replace (Nat.leb k (List.length rs)) with true by (symmetry; apply Nat.leb_le; lia). reflexivity. }
    rewrite SA in N. unfold Server.step. rewrite N. destruct (Nat.eq_dec k (List.length rs)) as [->|Ne].
    + rewrite skipn_all. pose proof (publish_ok u (s_files s) (s_lookup s)) as PO.
      destruct (publish u (s_files s) (s_lookup s)) as [[fs lk] ok]. cbn [snd] in PO. subst ok. cbn [fst snd s_sessions].
      rewrite (replace_nth_eq _ _ _ L). unfold session_after. fold rs.
      replace (Nat.leb (S (List.length rs)) (List.length rs)) with false by (symmetry; apply Nat.leb_gt; lia).
      rewrite Nat.eqb_refl. unfold stream. fold rs. rewrite nth_error_app2; rewrite map_length; [|lia]. rewrite Nat.sub_diag.
      destruct (okb u); cbn [map snd nth_error andb]; repeat split; auto.
    + destruct (skipn_cons k rs ltac:(lia)) as (x & X & ->). cbn [fst snd s_sessions map]. rewrite (replace_nth_eq _ _ _ L).
      unfold session_after. fold rs. replace (Nat.leb (S k) (List.length rs)) with true by (symmetry; apply Nat.leb_le; lia).
      unfold stream. fold rs. rewrite nth_error_app1 by (rewrite map_length; lia).
      rewrite (map_nth_error Progress _ _ X). repeat split; auto.
  - assert (S1 : session_after u (S k) = Ended).
    { unfold session_after. fold rs. replace (Nat.leb (S k) (List.length rs)) with false by (symmetry; apply Nat.leb_gt; lia).
      replace (Nat.eqb (S k) (S (List.length rs))) with false by (symmetry; apply Nat.eqb_neq; lia). reflexivity. }
    assert (S2 : nth_error (stream u) k = None).
    { apply nth_error_None. unfold stream. fold rs. rewrite app_length, map_length. destruct (okb u); cbn; lia. }
    assert (SA : session_after u k = Announced \/ session_after u k = Ended).
    { unfold session_after. fold rs. replace (Nat.leb k (List.length rs)) with false by (symmetry; apply Nat.leb_gt; lia).
      destruct (_ && _); auto. }
    rewrite S1, S2. unfold Server.step. destruct SA as [SA|SA]; rewrite SA in N; rewrite N; cbn [fst snd s_sessions map].
    + rewrite (replace_nth_eq _ _ _ L). auto.
    + auto.
Qed.

Lemma step_ended s i : nth_error (s_sessions s) i = Some Ended \/ nth_error (s_sessions s) i = None ->
  step s (Pull i) = (s, []).
Proof. unfold Server.step. intros [->| ->]; reflexivity. Qed.

Lemma step_other s a i : (match a with Pull j | Close j => j <> i | Post _ _ => True end) ->
  (i < List.length (s_sessions s))%nat ->
  nth_error (s_sessions (fst (step s a))) i = nth_error (s_sessions s) i /\ events_of i (snd (step s a)) = [].
Proof.
  intros NE L. destruct a as [[u|] []|j|j]; cbn [Server.step fst snd s_sessions]; auto.
  - split; [apply nth_error_app1; exact L | reflexivity].
  - destruct (nth_error (s_sessions s) j) as [[u [|r rest]| |]|]; cbn [fst snd s_sessions]; auto.
    + destruct (publish u (s_files s) (s_lookup s)) as [[fs lk] ok]. cbn [fst snd s_sessions].
      split; [apply replace_nth_neq; exact NE|]. destruct ok; [|reflexivity]. rewrite events_of_one.
      destruct (Nat.eqb_spec j i); [contradiction|reflexivity].
    + split; [apply replace_nth_neq; exact NE|]. rewrite events_of_one.
      destruct (Nat.eqb_spec j i); [contradiction|reflexivity].
    + split; [apply replace_nth_neq; exact NE|]. reflexivity.
  - split; [apply replace_nth_neq; exact NE|]. reflexivity.
Qed.

Lemma step_length s a : List.length (s_sessions (fst (step s a))) = (List.length (s_sessions s) + List.length (added a))%nat.
Proof.
  destruct a as [[u|] []|j|j]; cbn [Server.step fst snd s_sessions added List.length]; rewrite ?app_length, ?replace_nth_length, ?Nat.add_0_r; try reflexivity.
  destruct (nth_error (s_sessions s) j) as [[u [|r rest]| |]|]; cbn [fst snd s_sessions]; rewrite ?replace_nth_length; auto.
  destruct (publish u (s_files s) (s_lookup s)) as [[fs lk] ok]. cbn [fst snd s_sessions]. apply replace_nth_length.
Qed.
Lemma sessions_length h : List.length (s_sessions (state_after h)) = List.length (accepted_uploads h).
Proof.
  induction h as [|a h IH] using rev_ind; [reflexivity|].
  rewrite state_snoc, step_length, uploads_snoc, app_length, IH. reflexivity.
Qed.

Lemma no_events i h : (List.length (accepted_uploads h) <= i)%nat -> events_of i (events h) = [].
Proof.
  induction h as [|b h IH] using rev_ind; [reflexivity|]. rewrite uploads_snoc, app_length. intros L.
  rewrite events_snoc, events_of_app, IH by lia. cbn [app]. pose proof (sessions_length h) as SL.
  destruct b as [[w|] []|j|j]; try reflexivity. unfold Server.step.
  destruct (nth_error (s_sessions (state_after h)) j) as [ss|] eqn:J; [|reflexivity].
  assert (JL : (j < List.length (s_sessions (state_after h)))%nat) by (apply nth_error_Some; congruence).
  assert (JI : Nat.eqb j i = false) by (apply Nat.eqb_neq; lia).
  destruct ss as [w [|r rest]| |]; cbn [snd]; rewrite ?events_of_one, ?JI; try reflexivity.
  destruct (publish w _ _) as [[fs lk] ok]. destruct ok; cbn [snd]; rewrite ?events_of_one, ?JI; reflexivity.
Qed.

(** The state of a stream, and what was delivered on it. *)
Lemma sessions_inv h i u : nth_error (accepted_uploads h) i = Some u ->
  nth_error (s_sessions (state_after h)) i = Some (if gone i 0 h then Ended else session_after u (asked i 0 h))
  /\ events_of i (events h) = firstn (asked i 0 h) (stream u).
Proof.
  revert i u. induction h as [|a h IH] using rev_ind; intros i u N; [destruct i; discriminate|].
  rewrite state_snoc, events_snoc, events_of_app, gone_snoc, asked_snoc. cbn [Nat.add].
  rewrite uploads_snoc in N. pose proof (sessions_length h) as SL.
  destruct (Nat.lt_ge_cases i (List.length (accepted_uploads h))) as [L|L].
  - rewrite nth_error_app1 in N by exact L. destruct (IH _ _ N) as [A B]. rewrite B.
    replace (Nat.ltb i (List.length (accepted_uploads h))) with true by (symmetry; apply Nat.ltb_lt; exact L).
    destruct a as [doc sse|j|j].
    + destruct (step_other (state_after h) (Post doc sse) i Logic.I ltac:(lia)) as [A' B'].
      rewrite A', B', A, orb_false_r, andb_false_r, app_nil_r. auto.
    + rewrite andb_true_r, orb_false_r. destruct (Nat.eqb_spec j i) as [->|Ne].
      * destruct (gone i 0 h); cbn [negb andb].
        -- rewrite (step_ended (state_after h) i) by auto. cbn [fst snd]. rewrite app_nil_r. auto.
        -- destruct (step_pull _ _ _ _ A) as (P & Q & R). split; [exact P|].
           replace (events_of i (snd (step (state_after h) (Pull i)))) with (map snd (snd (step (state_after h) (Pull i)))).
           ++ rewrite Q. destruct (nth_error (stream u) (asked i 0 h)) as [e|] eqn:E.
              ** symmetry. apply firstn_snoc. exact E.
              ** apply nth_error_None in E. rewrite app_nil_r, !firstn_all2 by lia. reflexivity.
           ++ unfold events_of. clear - R. induction R as [|p l P R IH]; [reflexivity|]. cbn [filter]. rewrite P, Nat.eqb_refl.
              cbn [map]. f_equal. exact IH.
      * destruct (step_other (state_after h) (Pull j) i Ne ltac:(lia)) as [A' B'].
        rewrite A', B', A, andb_false_r, app_nil_r. auto.
    + rewrite andb_true_r, andb_false_r. destruct (Nat.eqb_spec j i) as [->|Ne].
      * rewrite orb_true_r. cbn [Server.step fst snd s_sessions]. rewrite replace_nth_eq by lia. cbn. rewrite app_nil_r. auto.
      * destruct (step_other (state_after h) (Close j) i Ne ltac:(lia)) as [A' B'].
        rewrite A', B', A, orb_false_r, app_nil_r. auto.
  - rewrite nth_error_app2 in N by exact L. destruct a as [[v|] []|j|j]; cbn [added] in N; try (destruct (i - _)%nat; discriminate).
    destruct (i - List.length (accepted_uploads h))%nat as [|k] eqn:E; [|destruct k; discriminate]. injection N as ->.
    rewrite (gone_none i h 0) by (cbn; lia). cbn [Server.step fst snd s_sessions orb negb andb].
    rewrite (asked_none i h 0) by (cbn; lia). rewrite nth_error_app2 by lia. rewrite SL, E. cbn [nth_error].
    split; [reflexivity|]. rewrite app_nil_r. cbn [firstn].
    apply no_events. exact L.
Qed.

(** ** The cache *)

Lemma session_running u k v rs : session_after u k = Running v rs -> v = u.
Proof. unfold session_after. destruct (Nat.leb _ _); [congruence|]. destruct (_ && _); discriminate. Qed.

(** The effect of a step on the cache. *)
Lemma step_effect h a :
  s_files (state_after (h ++ [a])) = s_files (state_after h) /\ s_lookup (state_after (h ++ [a])) = s_lookup (state_after h)
    /\ (forall i c, ~ In (i, Completed c) (snd (step (state_after h) a)))
  \/ exists i u ok, a = Pull i /\ nth_error (accepted_uploads h) i = Some u
    /\ publish u (s_files (state_after h)) (s_lookup (state_after h))
       = (s_files (state_after (h ++ [a])), s_lookup (state_after (h ++ [a])), ok)
    /\ snd (step (state_after h) a) = if ok then [(i, Completed (md5 (u_bytes u)))] else [].
Proof.
  rewrite state_snoc. destruct a as [[u|] []|j|j]; try (left; cbn; auto; fail).
  unfold Server.step. destruct (nth_error (s_sessions (state_after h)) j) as [ss|] eqn:J; [|left; cbn; auto].
  destruct ss as [v [|r rest]| |]; cbn [fst snd s_files s_lookup]; try (left; cbn; auto; fail).
  - right. assert (JL : (j < List.length (accepted_uploads h))%nat)
      by (rewrite <- sessions_length; apply nth_error_Some; congruence).
    destruct (nth_error (accepted_uploads h) j) as [u|] eqn:U; [|apply nth_error_None in U; lia].
    destruct (sessions_inv _ _ _ U) as [A _]. rewrite J in A.
    assert (v = u) as ->.
    { injection A as A. destruct (gone j 0 h); [discriminate|]. exact (session_running _ _ _ _ (eq_sym A)). }
    destruct (publish u (s_files (state_after h)) (s_lookup (state_after h))) as [[fs lk] ok] eqn:P.
    exists j, u, ok. cbn [fst snd s_files s_lookup]. auto.
  - left. split; [reflexivity|]. split; [reflexivity|]. intros i c [E|[]]. discriminate.
Qed.

Definition known_file (us : list upload) (n : str) (c : content) : Prop :=
  (exists u d, In u us /\ succeeds u d /\ n = json_of u /\ c = CJson d)
  \/ (exists u stem d, In u us /\ succeeds u d /\ document u stem /\ n = stem ++ utf8 ".html" /\ html_document u c).
Definition known_hash (h : list act) (hash : str) (p : str) : Prop :=
  exists i u stem, nth_error (accepted_uploads h) i = Some u /\ document u stem /\ md5 (u_bytes u) = hash
    /\ p = json_of u /\ p = stem ++ utf8 ".json" /\ In (i, Completed hash) (events h)
    /\ s_files (state_after h) p <> None /\ s_files (state_after h) (stem ++ utf8 ".html") <> None.

Lemma put_same {A} k (v : A) m : put k v m k = Some v.
Proof. unfold put. rewrite seqb_refl. reflexivity. Qed.
Lemma put_other {A} k k' (v : A) m : k' <> k -> put k v m k' = m k'.
Proof. intros N. unfold put. destruct (seqb_spec k' k); [contradiction|reflexivity]. Qed.
Lemma put_keeps {A} k (v : A) m k' : m k' <> None -> put k v m k' <> None.
Proof. unfold put. destruct (seqb k' k); [discriminate|auto]. Qed.

Lemma known_file_incl us us' n c : incl us us' -> known_file us n c -> known_file us' n c.
Proof.
  intros I [(u & d & A & B)|(u & stem & d & A & B)]; [left; exists u, d|right; exists u, stem, d]; auto.
Qed.

Lemma cache_inv h :
  (forall n c, s_files (state_after h) n = Some c -> known_file (accepted_uploads h) n c)
  /\ (forall hash p, s_lookup (state_after h) hash = Some p -> known_hash h hash p)
  /\ (forall i hash, In (i, Completed hash) (events h) ->
        s_lookup (state_after h) hash <> None
        /\ exists u, nth_error (accepted_uploads h) i = Some u /\ hash = md5 (u_bytes u)).
Proof.
  induction h as [|a h IH] using rev_ind.
  - cbn. split; [discriminate|]. split; [discriminate|]. intros i hash [].
  - destruct IH as (IF & IL & IE).
    assert (IU : incl (accepted_uploads h) (accepted_uploads (h ++ [a]))) by (rewrite uploads_snoc; apply incl_appl, incl_refl).
    assert (NU : forall i u, nth_error (accepted_uploads h) i = Some u -> nth_error (accepted_uploads (h ++ [a])) i = Some u).
    { intros i u U. rewrite uploads_snoc, nth_error_app1; [exact U|]. apply nth_error_Some. congruence. }
    assert (IV : forall i hash, In (i, Completed hash) (events h) -> In (i, Completed hash) (events (h ++ [a])))
      by (intros i hash X; rewrite events_snoc; apply in_or_app; auto).
    destruct (step_effect h a) as [(F & L & E)|(i & u & ok & -> & U & P & E)].
    + unfold known_hash. rewrite F, L. split; [|split].
      * intros n c X. exact (known_file_incl _ _ _ _ IU (IF _ _ X)).
      * intros hash p X. destruct (IL _ _ X) as (i & u & stem & A1 & A2 & A3 & A4 & A5 & A6 & A7 & A8).
        exists i, u, stem. auto 10.
      * intros i hash X. rewrite events_snoc in X. apply in_app_or in X as [X|X]; [|destruct (E _ _ X)].
        destruct (IE _ _ X) as (Y & u & Z & W). split; [exact Y|]. exists u. auto.
    + assert (Uin : In u (accepted_uploads (h ++ [Pull i]))) by (apply IU; eapply nth_error_In; exact U).
      assert (IE' : forall j hash, In (j, Completed hash) (events (h ++ [Pull i])) ->
        In (j, Completed hash) (events h) \/ ok = true /\ j = i /\ hash = md5 (u_bytes u)).
      { intros j hash X. rewrite events_snoc in X. apply in_app_or in X as [X|X]; [left; exact X|right].
        rewrite E in X. destruct ok; [|destruct X]. destruct X as [X|[]]. injection X as <- <-. auto. }
      unfold known_hash.
      destruct (publish_cases u (s_files (state_after h)) (s_lookup (state_after h)))
        as [(_ & Q)|[(d & SU & ND & Q)|(d & stem & c & SU & D & HD & J & Q)]];
      rewrite P in Q; apply pair_equal_spec in Q as [Q ->]; apply pair_equal_spec in Q as [-> ->].
      * split; [|split].
        -- intros n c X. exact (known_file_incl _ _ _ _ IU (IF _ _ X)).
        -- intros hash p X. destruct (IL _ _ X) as (i' & u' & stem & A1 & A2 & A3 & A4 & A5 & A6 & A7 & A8).
           exists i', u', stem. auto 10.
        -- intros j hash X. destruct (IE' _ _ X) as [X'|([=] & _)].
           destruct (IE _ _ X') as (Y & u' & Z & W). split; [exact Y|]. exists u'. auto.
      * split; [|split].
        -- intros n c X. unfold put in X. destruct (seqb_spec n (json_of u)) as [->|_].
           ++ injection X as <-. left. exists u, d. auto.
           ++ exact (known_file_incl _ _ _ _ IU (IF _ _ X)).
        -- intros hash p X. destruct (IL _ _ X) as (i' & u' & stem & A1 & A2 & A3 & A4 & A5 & A6 & A7 & A8).
           exists i', u', stem. repeat (split; [auto; fail|]). split; apply put_keeps; assumption.
        -- intros j hash X. destruct (IE' _ _ X) as [X'|([=] & _)].
           destruct (IE _ _ X') as (Y & u' & Z & W). split; [exact Y|]. exists u'. auto.
      * split; [|split].
        -- intros n c' X. unfold put in X. destruct (seqb_spec n (stem ++ utf8 ".html")) as [->|_].
           { injection X as <-. right. exists u, stem, d. auto 10. }
           destruct (seqb_spec n (json_of u)) as [->|_].
           ++ injection X as <-. left. exists u, d. auto.
           ++ exact (known_file_incl _ _ _ _ IU (IF _ _ X)).
        -- intros hash p X. unfold put in X. destruct (seqb_spec hash (md5 (u_bytes u))) as [->|_].
           ++ injection X as <-. exists i, u, stem. repeat (split; [auto; fail|]). split.
              { rewrite events_snoc, E. apply in_or_app. right. left. reflexivity. }
              split; [apply put_keeps; rewrite put_same; discriminate | rewrite put_same; discriminate].
           ++ destruct (IL _ _ X) as (i' & u' & stem' & A1 & A2 & A3 & A4 & A5 & A6 & A7 & A8).
              exists i', u', stem'. repeat (split; [auto; fail|]). split; apply put_keeps; apply put_keeps; assumption.
        -- intros j hash X. destruct (IE' _ _ X) as [X'|(_ & -> & ->)].
           ++ destruct (IE _ _ X') as (Y & u' & Z & W). split; [apply put_keeps; exact Y|]. exists u'. auto.
           ++ split; [rewrite put_same; discriminate|]. exists u. auto.
Qed.

End S.
