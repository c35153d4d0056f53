(** Properties of the web server (C55, C56, C57, C68, C69). *)
From Coq Require Import NArith ZArith List Bool String Lia.
From Verif Require Import PyStr PyStrFacts Xml Json Lint Extract Document Output Cli SpecText SpecCli Prop_Cli
  SpecOutput Prop_Doc Prop_Output Server SpecServer ServerProofs.
Import ListNotations.
Local Open Scope list_scope.

Lemma stage_lint version args b w s rs d : json_stage version args b w s = (rs, d, Finished) ->
  exists ls, meta_value d "lint" = Some (JList (map lint_json ls)).
Proof.
  unfold json_stage. destruct (open_doc s) as [e|[[root k] v]]; [intros [= ]|].
  destruct (parse_doc _ root) as [r evs]. destruct (write_events _ _ _ _ _ _) as [[rs' d'] [w'|]]; [|intros [= ]].
  destruct r; intros E; [|discriminate|discriminate]. apply (f_equal (fun p => snd (fst p))) in E. cbn [fst snd] in E. subst d.
  unfold meta_value, write_meta. cbn [mo_meta]. rewrite jget_set, seqb_refl. eexists. reflexivity.
Qed.

Section S.
Variable version : str.
Variable md5 : bytes -> str.
Variable decode : bytes -> found.
Notation succeeds := (succeeds version decode).
Notation announced := (announced version md5 decode).
Notation state_after := (state_after version md5 decode).
Notation run_server := (run_server version md5 decode).
Notation run_of := (run_of version decode).

Lemma succeeds_lint u d : succeeds u d -> exists ls, meta_value d "lint" = Some (JList (map lint_json ls)).
Proof.
  intros (r & -> & E & F). unfold parse_spec in E, F. destruct (if seqb _ _ then _ else _) as [s|t is ra s].
  - destruct (json_stage _ _ _ _ _) as [[rs d'] e] eqn:J. cbn in E, F. subst e. injection F as ->. exact (stage_lint _ _ _ _ _ _ _ J).
  - destruct (html_reports _ _ _) as [rs0 [w|]]; [|discriminate]. destruct ra; [discriminate|].
    destruct (json_stage _ _ _ _ _) as [[rs d'] e] eqn:J. cbn in E, F. subst e. injection F as ->. exact (stage_lint _ _ _ _ _ _ _ J).
Qed.

(** ** C56 *)

(** Whatever else the server does, the client of an upload is sent, as far as it asks for
    them, the progress reports of processing that upload and, if and only if this succeeds and
    the upload is an HTML or docx file, last of all the completion with the digest of the
    upload. *)
Theorem C56_events hist i u r :
  nth_error (accepted_uploads hist) i = Some u -> processing version decode u r ->
  exists last, events_of i (snd (run_server init hist))
      = firstn (asked i 0 hist) (map Progress (r_reports r) ++ last)
    /\ (last = [Completed (md5 (u_bytes u))] /\ (exists d stem, succeeds u d /\ document u stem)
        \/ last = [] /\ ~ exists d stem, succeeds u d /\ document u stem).
Proof.
  intros U P. apply run_processing in P. rewrite P. destruct (sessions_inv version md5 decode _ _ _ U) as [_ E].
  exists (if okb version decode u then [Completed (md5 (u_bytes u))] else []). split; [exact E|].
  destruct (okb version decode u) eqn:O; [left|right]; (split; [reflexivity|]).
  - apply okb_iff. exact O.
  - rewrite <- okb_iff, O. discriminate.
Qed.

Lemma announced_upload hist i h : announced hist i h ->
  exists u d stem, nth_error (accepted_uploads hist) i = Some u /\ h = md5 (u_bytes u) /\ succeeds u d /\ document u stem.
Proof.
  intros A. destruct (cache_inv version md5 decode hist) as (_ & _ & IE). destruct (IE _ _ A) as (_ & u & U & E).
  destruct (C56_events hist i u _ U (proj2 (run_processing version decode u _) eq_refl)) as (last & Ev & [(-> & d & stem & SU & D)|(-> & N)]).
  - exists u, d, stem. auto.
  - exfalso. assert (X : In (Completed h) (events_of i (snd (run_server init hist)))).
    { unfold events_of. apply in_map_iff. exists (i, Completed h). split; [reflexivity|]. apply filter_In. split; [exact A|].
      apply Nat.eqb_refl. }
    rewrite Ev, app_nil_r in X. assert (Y : In (Completed h) (map Progress (r_reports (run_of u)))).
    { rewrite <- (firstn_skipn (asked i 0 hist)). apply in_or_app. left. exact X. }
    apply in_map_iff in Y as (x & Y & _). discriminate.
Qed.

(** When the completion is sent, the report, the HTML document and the report page of that
    upload are there. *)
Theorem C56_available hist a i h :
  announced (hist ++ [a]) i h -> ~ announced hist i h ->
  exists u d c, nth_error (accepted_uploads hist) i = Some u /\ h = md5 (u_bytes u) /\ succeeds u d /\ html_document u c
    /\ get_json (state_after (hist ++ [a])) h = Served (CJson d)
    /\ get_html (state_after (hist ++ [a])) h = Served c
    /\ get_report (state_after (hist ++ [a])) h = Page (CJson d) c.
Proof.
  intros A NA. unfold SpecServer.announced in A, NA. rewrite events_snoc in A. apply in_app_or in A as [A|A]; [contradiction|].
  destruct (step_effect version md5 decode hist a) as [(_ & _ & E)|(j & u & ok & -> & U & P & E)]; [destruct (E _ _ A)|].
  rewrite E in A. destruct ok; [|destruct A]. destruct A as [A|[]]. injection A as -> <-.
  destruct (publish_cases version md5 decode u (s_files (state_after hist)) (s_lookup (state_after hist)))
    as [(_ & Q)|[(d & _ & _ & Q)|(d & stem & c & SU & D & HD & J & Q)]]; rewrite P in Q; try discriminate.
  apply pair_equal_spec in Q as [Q _]. apply pair_equal_spec in Q as [QF QL].
  exists u, d, c. repeat (split; [auto; fail|]).
  assert (L : s_lookup (state_after (hist ++ [Pull i])) (md5 (u_bytes u)) = Some (json_of decode u)) by (rewrite QL; apply put_same).
  assert (Ne : stem <> []) by (destruct D as [D|D]; apply D).
  assert (W : with_suffix (json_of decode u) (utf8 ".html") = stem ++ utf8 ".html").
  { rewrite J. exact (with_suffix_named _ _ _ _ (named_json _ Ne)). }
  assert (F1 : s_files (state_after (hist ++ [Pull i])) (json_of decode u) = Some (CJson d)).
  { rewrite QF, put_other, put_same; [reflexivity|]. rewrite J. apply json_ne_html. }
  assert (F2 : s_files (state_after (hist ++ [Pull i])) (stem ++ utf8 ".html") = Some c) by (rewrite QF; apply put_same).
  destruct (succeeds_lint _ _ SU) as (ls & LS). unfold meta_value in LS.
  unfold get_json, get_html, get_report. rewrite L, W, F1, F2, LS. auto.
Qed.

(** A step that does not announce a completion changes no entry of the lookup table; it changes
    a file of the cache only if it ends the successful processing of an upload that is neither
    an HTML nor a docx file. *)
Theorem C56_failure hist a :
  (forall i h, announced (hist ++ [a]) i h -> announced hist i h) ->
  (forall h, s_lookup (state_after (hist ++ [a])) h = s_lookup (state_after hist) h)
  /\ ((forall n, s_files (state_after (hist ++ [a])) n = s_files (state_after hist) n)
      \/ exists i u d, a = Pull i /\ nth_error (accepted_uploads hist) i = Some u /\ succeeds u d
           /\ ~ exists stem, document u stem).
Proof.
  intros NA. destruct (step_effect version md5 decode hist a) as [(F & L & E)|(j & u & ok & -> & U & P & E)].
  - rewrite F, L. auto.
  - destruct (publish_cases version md5 decode u (s_files (state_after hist)) (s_lookup (state_after hist)))
      as [(_ & Q)|[(d & SU & ND & Q)|(d & stem & c & SU & D & HD & J & Q)]]; rewrite P in Q;
      apply pair_equal_spec in Q as [Q ->]; apply pair_equal_spec in Q as [QF QL].
    + rewrite QF, QL. auto.
    + rewrite QL. split; [reflexivity|]. right. exists j, u, d. auto.
    + exfalso. destruct (sessions_inv version md5 decode _ _ _ U) as [_ Ev].
      assert (X : announced (hist ++ [Pull j]) j (md5 (u_bytes u))).
      { unfold SpecServer.announced. rewrite events_snoc, E. apply in_or_app. right. left. reflexivity. }
      pose proof (NA _ _ X) as Y.
      (* a second completion of the same stream *)
      destruct (C56_events (hist ++ [Pull j]) j u _ ltac:(rewrite uploads_snoc; cbn [added]; rewrite app_nil_r; exact U)
                 (proj2 (run_processing version decode u _) eq_refl)) as (last & Ev' & CL).
      rewrite events_snoc, E, events_of_app, events_of_one, Nat.eqb_refl in Ev'.
      assert (X2 : In (Completed (md5 (u_bytes u))) (events_of j (snd (run_server init hist)))).
      { unfold events_of. apply in_map_iff. eexists. split; [|apply filter_In; split; [exact Y|apply Nat.eqb_refl]]. reflexivity. }
      apply in_split in X2 as (A & B & X2). rewrite X2 in Ev'.
      set (c0 := Completed (md5 (u_bytes u))) in *.
      set (isc := fun e : sevent => match e with Completed _ => true | Progress _ => false end).
      assert (C2 : (2 <= List.length (filter isc ((A ++ c0 :: B) ++ [c0])))%nat).
      { rewrite !filter_app. cbn [filter isc c0]. rewrite !app_length. cbn [List.length]. lia. }
      rewrite Ev' in C2.
      assert (C1 : (List.length (filter isc (firstn (asked j 0 (hist ++ [Pull j])) (map Progress (r_reports (run_of u)) ++ last))) <= 1)%nat).
      { assert (FF : forall (k : nat) l, (List.length (filter isc (firstn k l)) <= List.length (filter isc l))%nat).
        { clear. intros k l. rewrite <- (firstn_skipn k l) at 2. rewrite filter_app, app_length. lia. }
        eapply Nat.le_trans; [apply FF|]. rewrite filter_app, app_length.
        replace (filter isc (map Progress (r_reports (run_of u)))) with (@nil sevent)
          by (clear; induction (r_reports (run_of u)); [reflexivity|assumption]).
        destruct CL as [(-> & _)|(-> & _)]; cbn; lia. }
      lia.
Qed.

(** Once announced, the report stays there. *)
Theorem C56_kept hist i h : announced hist i h ->
  (exists d, get_json (state_after hist) h = Served (CJson d))
  /\ (exists c, get_html (state_after hist) h = Served c)
  /\ (exists d c, get_report (state_after hist) h = Page (CJson d) c).
Proof.
  intros A. destruct (cache_inv version md5 decode hist) as (IF & IL & IE). destruct (IE _ _ A) as (L & _).
  destruct (s_lookup (state_after hist) h) as [p|] eqn:Lk; [|congruence].
  destruct (IL _ _ Lk) as (i' & v & stem & _ & D & _ & _ & Pj & _ & F1 & F2).
  assert (Ne : stem <> []) by (destruct D as [D|D]; apply D).
  assert (W : with_suffix p (utf8 ".html") = stem ++ utf8 ".html").
  { rewrite Pj. exact (with_suffix_named _ _ _ _ (named_json _ Ne)). }
  destruct (s_files (state_after hist) p) as [c1|] eqn:E1; [|congruence].
  destruct (s_files (state_after hist) (stem ++ utf8 ".html")) as [c2|] eqn:E2; [|congruence].
  destruct (IF _ _ E1) as [(w & d & _ & SU & _ & ->)|(w & s' & d & _ & _ & _ & X & _)];
    [|rewrite Pj in X; destruct (json_ne_html _ _ X)].
  destruct (succeeds_lint _ _ SU) as (ls & LS). unfold meta_value in LS.
  unfold get_json, get_html, get_report. rewrite Lk, W, E1, E2, LS. split; [eauto|]. split; eauto.
Qed.

(** ** C57 *)

(** A request for a hash whose completion was never announced raises an exception in each of
    the three handlers, and none of them ever answers 404. *)
Theorem C57_unknown hist h : (forall i, ~ announced hist i h) ->
  get_report (state_after hist) h = Raised /\ get_json (state_after hist) h = Raised /\ get_html (state_after hist) h = Raised.
Proof.
  intros N. destruct (cache_inv version md5 decode hist) as (_ & IL & _).
  unfold get_report, get_json, get_html. destruct (s_lookup (state_after hist) h) as [p|] eqn:L; [|auto].
  destruct (IL _ _ L) as (i & u & stem & _ & _ & _ & _ & _ & A & _). destruct (N i A).
Qed.
Theorem C57_never_404 hist h :
  get_report (state_after hist) h <> NotFound /\ get_json (state_after hist) h <> NotFound /\ get_html (state_after hist) h <> NotFound.
Proof.
  destruct (s_lookup (state_after hist) h) as [p|] eqn:L.
  - destruct (cache_inv version md5 decode hist) as (_ & IL & _). destruct (IL _ _ L) as (i & u & stem & _ & _ & _ & _ & _ & A & _).
    destruct (C56_kept hist i h A) as ((d & ->) & (c & ->) & (d' & c' & ->)). repeat split; discriminate.
  - unfold get_report, get_json, get_html. rewrite L. repeat split; discriminate.
Qed.

(** ** C55 *)

(** If uploads with different content never share a stem nor a digest, then after every history
    the hash of a completed upload leads to the report and the HTML document of that upload. *)
Theorem C55_serves hist i u h :
  own_names (accepted_uploads hist) -> no_collision md5 (accepted_uploads hist) -> same_kind (accepted_uploads hist) u ->
  nth_error (accepted_uploads hist) i = Some u -> announced hist i h ->
  h = md5 (u_bytes u)
  /\ exists d c, succeeds u d /\ html_document u c
    /\ get_json (state_after hist) h = Served (CJson d)
    /\ get_html (state_after hist) h = Served c
    /\ get_report (state_after hist) h = Page (CJson d) c.
Proof.
  intros ON NC SK U A. destruct (announced_upload _ _ _ A) as (u' & du & su & U' & Eh & _ & Du).
  rewrite U in U'. injection U' as <-. split; [exact Eh|].
  destruct (cache_inv version md5 decode hist) as (IF & IL & IE). destruct (IE _ _ A) as (L & _).
  destruct (s_lookup (state_after hist) h) as [p|] eqn:Lk; [|congruence].
  destruct (IL _ _ Lk) as (i' & v & stem & V & D & Mv & Pv & Pj & _ & F1 & F2).
  pose proof (nth_error_In _ _ U) as Uin. pose proof (nth_error_In _ _ V) as Vin.
  assert (BV : u_bytes v = u_bytes u) by (apply NC; congruence).
  assert (Ne : stem <> []) by (destruct D as [D|D]; apply D).
  assert (W : with_suffix p (utf8 ".html") = stem ++ utf8 ".html").
  { rewrite Pj. exact (with_suffix_named _ _ _ _ (named_json _ Ne)). }
  assert (KD : forall w, In w (accepted_uploads hist) -> u_bytes w = u_bytes u -> is_docx w = is_docx u).
  { intros w Win Bw. specialize (SK w Win Bw). rewrite <- !is_docx_named in SK.
    destruct (is_docx w), (is_docx u); try reflexivity; destruct SK as [S1 S2]; [symmetry; apply S1|apply S2]; reflexivity. }
  destruct (s_files (state_after hist) p) as [c1|] eqn:E1; [|congruence].
  destruct (s_files (state_after hist) (stem ++ utf8 ".html")) as [c2|] eqn:E2; [|congruence].
  destruct (IF _ _ E1) as [(w & d & Win & SU & X & ->)|(w & s' & d & _ & _ & _ & X & _)];
    [|rewrite Pj in X; destruct (json_ne_html _ _ X)].
  assert (SUu : succeeds u d).
  { rewrite Pv in X. destruct (json_same decode v w X) as (s0 & Sv & Sw).
    assert (Bw : u_bytes w = u_bytes u) by (rewrite <- BV; exact (ON w v s0 Win Vin Sw Sv)).
    apply succeeds_run. apply succeeds_run in SU. rewrite <- (run_kind version decode w u Bw (KD w Win Bw)). exact SU. }
  assert (HDu : html_document u c2).
  { destruct (IF _ _ E2) as [(w' & d' & _ & _ & X' & _)|(w' & s' & d' & Win' & _ & D' & X' & HD)];
      [rewrite json_of_stem in X'; symmetry in X'; destruct (json_ne_html _ _ X')|].
    apply app_inv_tail in X'. subst s'.
    assert (Bw : u_bytes w' = u_bytes u).
    { rewrite <- BV. apply (ON w' v stem Win' Vin); left; [destruct D' as [D'|D']|destruct D as [D|D]]; eauto. }
    pose proof (KD w' Win' Bw) as K. unfold html_document.
    destruct HD as (s0 & [(Nm & ->)|(Nm & ->)]); rewrite Bw.
    - destruct Du as [Du|Du]; [exists su; auto|]. exfalso.
      assert (K1 : is_docx u = true) by (apply is_docx_named; eauto). rewrite K1 in K. apply is_docx_named in K as (s1 & K).
      destruct (named_unique _ _ _ _ _ Nm K) as [_ K2]. discriminate.
    - destruct Du as [Du|Du]; [|exists su; auto]. exfalso.
      assert (K1 : is_docx w' = true) by (apply is_docx_named; eauto). rewrite K1 in K. symmetry in K. apply is_docx_named in K as (s1 & K).
      destruct (named_unique _ _ _ _ _ Du K) as [_ K2]. discriminate. }
  exists d, c2. split; [exact SUu|]. split; [exact HDu|].
  destruct (succeeds_lint _ _ SUu) as (ls & LS). unfold meta_value in LS.
  unfold get_json, get_html, get_report. rewrite Lk, W, E1, E2, LS. auto.
Qed.

End S.

(** ** Examples and refutations *)

(** Three contents; the "digest" of the examples is the content itself. *)
Definition x_decode (b : bytes) : found :=
  match b with
  | [1%N] => mkFound (Tree (o_doc [doc_good; doc_noid])) 0 [] true Unreadable
  | [2%N] => mkFound Unreadable 2 [0%N; 1%N] false (Tree (o_doc [doc_good]))
  | _ => mkFound Unreadable 0 [] true Unreadable
  end.
Definition x_md5 (b : bytes) : str := b.
Definition x_html := mkUpload (utf8 "nvm.v1.html") [1%N].
Definition x_docx := mkUpload (utf8 "zns.docx") [2%N].
Definition x_bad := mkUpload (utf8 "bad.html") [3%N].
Definition x_clash := mkUpload (utf8 "nvm.v1.docx") [2%N].
Definition x_xml := mkUpload (utf8 "zns.xml") [1%N].
Notation x_state := (state_after (utf8 "1") x_md5 x_decode).
Notation x_events h := (snd (run_server (utf8 "1") x_md5 x_decode init h)).

(** Three uploads at the same time; the third one fails, the first is asked for more events. *)
Definition x_hist : list act :=
  [Post (Some x_html) true; Post None true; Post (Some x_docx) true; Post (Some x_html) false; Post (Some x_bad) true;
   Pull 0; Pull 1; Pull 0; Pull 2; Pull 1; Pull 0; Pull 1; Pull 1; Pull 0; Pull 2; Pull 1; Pull 1].
Example x_hist_events :
  accepted_uploads x_hist = [x_html; x_docx; x_bad]
  /\ events_of 0 (x_events x_hist) = [Progress (PJson, 0, 2); Progress (PJson, 1, 2); Progress (PJson, 2, 2); Completed [1]]%N
  /\ events_of 1 (x_events x_hist) = [Progress (PHtml, 0, 2); Progress (PHtml, 1, 2); Progress (PJson, 0, 1); Progress (PJson, 1, 1); Progress (PJson, 2, 1); Completed [2]]%N
  /\ events_of 2 (x_events x_hist) = [].
Proof. repeat split; vm_compute; reflexivity. Qed.
Example x_hist_announced : announced (utf8 "1") x_md5 x_decode x_hist 0 [1%N] /\ announced (utf8 "1") x_md5 x_decode x_hist 1 [2%N].
Proof.
  unfold announced. assert (E : x_events x_hist =
    [(0%nat, Progress (PJson, 0, 2)); (1%nat, Progress (PHtml, 0, 2)); (0%nat, Progress (PJson, 1, 2)); (1%nat, Progress (PHtml, 1, 2));
     (0%nat, Progress (PJson, 2, 2)); (1%nat, Progress (PJson, 0, 1)); (1%nat, Progress (PJson, 1, 1)); (0%nat, Completed [1]);
     (1%nat, Progress (PJson, 2, 1)); (1%nat, Completed [2])]%N)
    by (vm_compute; reflexivity).
  rewrite E. cbn. intuition.
Qed.
Lemma x_stem u s : has_stem u s -> s = drop_suffix (u_name u).
Proof. apply stem_drop. Qed.
Example x_hist_names : own_names (accepted_uploads x_hist) /\ no_collision x_md5 (accepted_uploads x_hist)
  /\ same_kind (accepted_uploads x_hist) x_html /\ same_kind (accepted_uploads x_hist) x_docx.
Proof.
  change (accepted_uploads x_hist) with [x_html; x_docx; x_bad].
  assert (Q : drop_suffix (u_name x_html) = utf8 "nvm.v1" /\ drop_suffix (u_name x_docx) = utf8 "zns" /\ drop_suffix (u_name x_bad) = utf8 "bad")
    by (vm_compute; auto).
  destruct Q as (Q1 & Q2 & Q3). split; [|split; [|split]].
  - intros u v s U V Su Sv. apply x_stem in Su, Sv. subst s.
    destruct U as [<-|[<-|[<-|[]]]], V as [<-|[<-|[<-|[]]]]; try reflexivity; rewrite ?Q1, ?Q2, ?Q3 in Sv; discriminate.
  - intros u v _ _ E. exact E.
  - intros v V B. destruct V as [<-|[<-|[<-|[]]]]; try discriminate. reflexivity.
  - intros v V B. destruct V as [<-|[<-|[<-|[]]]]; try discriminate. reflexivity.
Qed.

(** Without the hypothesis on the names: a later upload of another document with the same stem
    replaces the report under the hash of the first. *)
Theorem C55_overwrites : exists hist h1 h2 d,
  hist = [Post (Some x_html) true; Pull 0; Pull 0; Pull 0; Pull 0; Post (Some x_clash) true; Pull 1; Pull 1; Pull 1; Pull 1; Pull 1; Pull 1]
  /\ h1 = x_md5 (u_bytes x_html) /\ h2 = x_md5 (u_bytes x_clash) /\ h1 <> h2
  /\ succeeds (utf8 "1") x_decode x_clash d /\ ~ succeeds (utf8 "1") x_decode x_html d
  /\ get_json (x_state hist) h1 = Served (CJson d) /\ get_json (x_state hist) h2 = Served (CJson d).
Proof.
  do 4 eexists. split; [reflexivity|]. split; [reflexivity|]. split; [reflexivity|]. split; [discriminate|].
  split; [|split; [|split]].
  - apply succeeds_run. split; [vm_compute; reflexivity|]. vm_compute. reflexivity.
  - intros X. apply succeeds_run in X as [_ X]. vm_compute in X. discriminate.
  - vm_compute. reflexivity.
  - vm_compute. reflexivity.
Qed.

(** An upload that ends with an exception can replace the report of another one: its name ends
    neither in ".html" nor in ".docx". *)
Theorem C56_failure_refuted : exists hist d d',
  hist = [Post (Some x_docx) true; Pull 0; Pull 0; Pull 0; Pull 0; Pull 0; Pull 0; Post (Some x_xml) true; Pull 1; Pull 1; Pull 1]
  /\ succeeds (utf8 "1") x_decode x_docx d /\ get_json (x_state hist) [2%N] = Served (CJson d)
  /\ get_json (x_state (hist ++ [Pull 1])) [2%N] = Served (CJson d') /\ d <> d'
  /\ (forall h, ~ announced (utf8 "1") x_md5 x_decode (hist ++ [Pull 1]) 1 h).
Proof.
  do 3 eexists. split; [reflexivity|]. split; [|split; [|split; [|split]]].
  - apply succeeds_run. split; [vm_compute; reflexivity|]. vm_compute. reflexivity.
  - vm_compute. reflexivity.
  - vm_compute. reflexivity.
  - discriminate.
  - intros h X. destruct (announced_upload _ _ _ _ _ _ X) as (u & d & stem & U & _ & _ & D).
    injection U as <-. destruct D as [D|D]; pose proof (suffix_named _ _ _ D) as Q; vm_compute in Q; discriminate.
Qed.

(** ** C68: where uploads are saved *)

(** A file name without a slash that is not "..", "." or empty stays in the temporary directory. *)
Theorem C68_inside dir name : Forall (fun c => c <> utf8 "..") dir ->
  ~ In 47%N name -> name <> [] -> name <> utf8 "." -> name <> utf8 ".." ->
  resolve (destination dir name) = dir ++ [name].
Proof.
  intros Dd NS N0 N1 N2.
  assert (SP : split_char 47 name = [name]).
  { clear - NS. induction name as [|c r IH]; [reflexivity|]. cbn [split_char]. destruct (N.eqb_spec c 47) as [->|Ne]; [destruct NS; left; reflexivity|].
    rewrite IH; [reflexivity|]. intros X. apply NS. right. exact X. }
  assert (CO : components name = [name]).
  { unfold components. rewrite SP. cbn [filter]. destruct (seqb_spec name []) as [|_]; [contradiction|].
    destruct (seqb_spec name (utf8 ".")) as [|_]; [contradiction|]. reflexivity. }
  assert (DS : destination dir name = dir ++ [name]).
  { unfold destination. rewrite CO. destruct name as [|c r]; [contradiction|].
    destruct (N.eq_dec c 47) as [->|Ne]; [destruct NS; left; reflexivity|].
    destruct c as [|p]; [reflexivity|]. repeat (destruct p as [p|p|]; try reflexivity). contradiction. }
  rewrite DS. unfold resolve.
  assert (R : forall p acc, Forall (fun c => c <> utf8 "..") p -> resolve_aux acc p = rev acc ++ p).
  { induction p as [|c p IH]; intros acc F; cbn [resolve_aux]; [rewrite app_nil_r; reflexivity|].
    apply Forall_cons_iff in F as [F1 F2]. destruct (seqb_spec c (utf8 "..")); [contradiction|].
    rewrite IH by exact F2. cbn [rev]. rewrite <- app_assoc. reflexivity. }
  rewrite R; [reflexivity|]. apply Forall_app. split; [exact Dd|]. constructor; [exact N2|constructor].
Qed.
Example C68_ex : resolve (destination [utf8 "tmp"; utf8 "x1"] (utf8 "nvm.v1.docx")) = [utf8 "tmp"; utf8 "x1"; utf8 "nvm.v1.docx"].
Proof. vm_compute. reflexivity. Qed.
(** Other names leave it. *)
Theorem C68_outside_refuted :
  resolve (destination [utf8 "tmp"; utf8 "x1"] (utf8 "/srv/app.html")) = [utf8 "srv"; utf8 "app.html"]
  /\ resolve (destination [utf8 "tmp"; utf8 "x1"] (utf8 "../../srv/app.html")) = [utf8 "srv"; utf8 "app.html"].
Proof. vm_compute. auto. Qed.

(** ** C69: the digest is that of the whole file *)

Lemma chunks_concat size b : (0 < size)%nat -> forall fuel, (List.length b < fuel)%nat ->
  exists cs, read_chunks fuel size b = Some cs /\ List.concat cs = b.
Proof.
  intros P fuel. revert b. induction fuel as [|f IH]; intros b L; [lia|]. cbn [read_chunks].
  destruct b as [|x b]; [rewrite firstn_nil; exists []; auto|].
  destruct (firstn size (x :: b)) as [|y c] eqn:F; [destruct size; [lia|discriminate]|].
  destruct (IH (skipn size (x :: b))) as (cs & -> & C).
  { rewrite skipn_length. cbn [List.length] in *. lia. }
  exists ((y :: c) :: cs). split; [reflexivity|]. cbn [List.concat]. rewrite C, <- F. apply firstn_skipn.
Qed.

(** For a digest that may be fed piece by piece, and every chunk size, the value is the digest
    of the content in one piece. *)
Theorem C69_digest {H} (start : H) update hexdigest size b :
  (0 < size)%nat -> (forall s x y, update (update s x) y = update s (x ++ y)) -> (forall s, update s [] = s) ->
  md5sum start update hexdigest size b = Some (hexdigest (update start b)).
Proof.
  intros P U0 U1. unfold md5sum. destruct (chunks_concat size b P _ (Nat.lt_succ_diag_r _)) as (cs & -> & C).
  do 2 f_equal. rewrite <- C. clear C. revert start. induction cs as [|c cs IH]; intros s; cbn [fold_left List.concat]; [rewrite U1; reflexivity|].
  rewrite IH, U0. reflexivity.
Qed.
Example C69_ex : md5sum (H := list N) [] (@app N) (fun s => s) 4 (utf8 "specification") = Some (utf8 "specification").
Proof. vm_compute. reflexivity. Qed.

Print Assumptions C55_serves.
Print Assumptions C55_overwrites.
Print Assumptions C56_events.
Print Assumptions C56_available.
Print Assumptions C56_failure.
Print Assumptions C56_kept.
Print Assumptions C56_failure_refuted.
Print Assumptions C57_unknown.
Print Assumptions C57_never_404.
Print Assumptions C68_inside.
Print Assumptions C69_digest.
