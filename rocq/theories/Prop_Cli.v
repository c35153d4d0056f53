(** Properties of the command line program: C59 (exit status, isolation of inputs), C60 (output
    names), C61 (--lint-ignore).  The vocabulary is in SpecCli.v. *)
From Coq Require Import NArith ZArith List Bool String Lia ZifyBool ZifyN.
From Verif Require Import PyTables PyStr PyStrFacts Xml Json Lint Extract Document Output Schema Cli
  SpecOutput SpecCli Prop_Table Prop_Doc Prop_Output Prop_Schema.
Import ListNotations.
Local Open Scope list_scope.
Local Open Scope N_scope.

(** ** File names *)

Definition nodot (c : N) : bool := negb (c =? 46).

Lemma nodot_all s : forallb nodot s = true <-> ~ In 46 s.
Proof.
  unfold nodot. rewrite forallb_forall. split.
  - intros H D. specialize (H _ D). discriminate.
  - intros H x X. destruct (N.eqb_spec x 46); [congruence|reflexivity].
Qed.

Lemma suffix_named name stem ext : named name stem ext -> path_suffix name = 46 :: ext.
Proof.
  intros (-> & S & E & D). unfold path_suffix.
  rewrite rev_app_distr. cbn [rev]. rewrite <- app_assoc. cbn [app].
  assert (A : forallb nodot (rev ext) = true) by (apply nodot_all; rewrite <- in_rev; exact D).
  change (fun c => negb (c =? 46)) with nodot.
  rewrite (take_while_unique nodot (rev ext) (46 :: rev stem)), (drop_while_unique nodot (rev ext) (46 :: rev stem)); try exact A; try reflexivity.
  destruct (rev stem) eqn:R; [destruct stem; [congruence|]; cbn in R; apply app_eq_nil in R as [_ [=]]|].
  destruct (rev ext) eqn:R'; [destruct ext; [congruence|]; cbn in R'; apply app_eq_nil in R' as [_ [=]]|].
  f_equal. rewrite <- R'. apply rev_involutive.
Qed.

Lemma named_suffix name sfx : path_suffix name = sfx -> sfx <> [] ->
  exists stem ext, sfx = 46 :: ext /\ named name stem ext.
Proof.
  unfold path_suffix. change (fun c => negb (c =? 46)) with nodot. intros <- NE.
  pose proof (take_drop nodot (rev name)) as TD. pose proof (take_while_all nodot (rev name)) as TA.
  pose proof (drop_while_head nodot (rev name)) as DH.
  destruct (drop_while nodot (rev name)) as [|d [|d' rest]] eqn:D; try congruence.
  destruct (take_while nodot (rev name)) as [|a after] eqn:T; try congruence.
  specialize (DH _ _ eq_refl). assert (d = 46) as -> by (unfold nodot in DH; destruct (N.eqb_spec d 46); [assumption|discriminate]).
  exists (rev (d' :: rest)), (rev (a :: after)). split; [reflexivity|]. split; [|split; [|split]].
  - rewrite <- (rev_involutive name), <- TD, rev_app_distr. change (rev (46 :: d' :: rest)) with (rev (d' :: rest) ++ [46]).
    rewrite <- app_assoc. reflexivity.
  - cbn. intros E. apply app_eq_nil in E as [_ [=]].
  - cbn. intros E. apply app_eq_nil in E as [_ [=]].
  - rewrite <- in_rev. apply nodot_all. exact TA.
Qed.

Lemma named_unique name s e s' e' : named name s e -> named name s' e' -> s = s' /\ e = e'.
Proof.
  intros H H'. pose proof (suffix_named _ _ _ H) as A. rewrite (suffix_named _ _ _ H') in A. injection A as A. subst e'.
  split; [|reflexivity]. destruct H as [-> _], H' as [H' _]. apply app_inv_tail in H'. exact H'.
Qed.

Lemma drop_named name stem ext : named name stem ext -> drop_suffix name = stem.
Proof.
  intros H. unfold drop_suffix. rewrite (suffix_named _ _ _ H). destruct H as (-> & _). cbn [List.length].
  rewrite app_length. cbn [List.length]. replace (_ - _)%nat with (List.length stem) by lia.
  rewrite firstn_app, firstn_all, Nat.sub_diag. apply app_nil_r.
Qed.

Lemma output_named f stem ext : named (f_name f) stem ext -> json_name (html_file f) = stem ++ utf8 ".json".
Proof.
  intros H. unfold json_name, html_file. f_equal. destruct (seqb_spec (path_suffix (f_name f)) (utf8 ".docx")) as [E|E].
  - unfold html_name. rewrite (drop_named _ _ _ H). apply drop_named with (ext := utf8 "html").
    split; [reflexivity|]. split; [apply H|]. split; [discriminate|]. vm_compute. intuition discriminate.
  - exact (drop_named _ _ _ H).
Qed.

Lemma accepted_suffix f : accepted f <-> smem (path_suffix (f_name f)) [utf8 ".html"; utf8 ".docx"] = true.
Proof.
  rewrite smem_In. split.
  - intros (stem & [H|H]); rewrite (suffix_named _ _ _ H); [left|right; left]; reflexivity.
  - intros [E|[E|[]]]; symmetry in E; destruct (named_suffix _ _ E) as (stem & ext & Q & Nm); try discriminate;
      exists stem; [left|right]; injection Q as Q; subst ext; exact Nm.
Qed.

Lemma processed_input version args f r : processed version args f r <->
  accepted f /\ r = parse_spec version args false None (as_input f).
Proof.
  unfold as_input. split.
  - intros (stem & [(H & ->)|(H & ->)]); (split; [exists stem; auto|]); rewrite (suffix_named _ _ _ H); reflexivity.
  - intros ((stem & [H|H]) & ->); exists stem; [left|right]; (split; [exact H|]); rewrite (suffix_named _ _ _ H); reflexivity.
Qed.

(** ** The loop over the inputs *)

Section Loop.
Variable version : str.
Variable args : pargs.
Variable validate : bool.

Definition out_of (f : file) : list (str * model) :=
  if smem (path_suffix (f_name f)) [utf8 ".html"; utf8 ".docx"]
  then match r_file (parse_spec version args false None (as_input f)) with
       | Some d => [(json_name (html_file f), d)] | None => [] end
  else [].

Lemma out_of_writes f : writes version args f (out_of f).
Proof.
  unfold out_of. destruct (smem _ _) eqn:E.
  - left. assert (A : accepted f) by (apply accepted_suffix; exact E). destruct A as (stem & A).
    assert (exists ext, named (f_name f) stem ext) as (ext & Nm) by (destruct A; eexists; eassumption).
    exists stem, ext, (parse_spec version args false None (as_input f)). split; [exact Nm|]. split.
    + apply processed_input. split; [exists stem; exact A | reflexivity].
    + rewrite (output_named _ _ _ Nm). reflexivity.
  - right. split; [|reflexivity]. rewrite accepted_suffix, E. discriminate.
Qed.

Lemma writes_unique f ws : writes version args f ws -> ws = out_of f.
Proof.
  unfold out_of. intros [(stem & ext & r & Nm & P & ->)|(A & ->)].
  - apply processed_input in P as [A ->]. rewrite (proj1 (accepted_suffix f) A), (output_named _ _ _ Nm). reflexivity.
  - rewrite accepted_suffix in A. destruct (smem _ _); congruence.
Qed.

Definition well_b (f : file) : bool :=
  let r := parse_spec version args false None (as_input f) in
  smem (path_suffix (f_name f)) [utf8 ".html"; utf8 ".docx"]
  && match r_end r, r_file r with
     | Finished, Some d => negb (validate && negb (valid stage2_schema (model_json d)))
     | _, _ => false
     end.

Lemma well_iff f : goes_well version args validate f <-> well_b f = true.
Proof.
  unfold goes_well, well_b. split.
  - intros (r & d & P & E & F & V). apply processed_input in P as [A ->]. rewrite (proj1 (accepted_suffix f) A), E, F. cbn [andb].
    destruct validate; [rewrite V|]; reflexivity.
  - intros H. apply andb_prop in H as [A H]. revert H. destruct (r_end (parse_spec version args false None (as_input f))) eqn:E; [|intros [=]].
    destruct (r_file (parse_spec version args false None (as_input f))) as [d|] eqn:F; [|intros [=]]. intros H.
    exists (parse_spec version args false None (as_input f)), d. split; [apply processed_input; split; [apply accepted_suffix; exact A|reflexivity]|].
    split; [exact E|]. split; [exact F|]. intros V. rewrite V in H. revert H. destruct (valid stage2_schema (model_json d)); [reflexivity|discriminate].
Qed.

Lemma loop_step f rest : inputs_loop version args validate (f :: rest) =
  if well_b f then let (outs, s) := inputs_loop version args validate rest in (out_of f ++ outs, s)
  else (out_of f, 1).
Proof.
  cbn [inputs_loop]. unfold well_b, out_of.
  destruct (seqb_spec (path_suffix (f_name f)) (utf8 ".json")) as [->|_]; [reflexivity|].
  destruct (smem _ _); [|reflexivity]. cbn [negb andb].
  destruct (r_end _); destruct (r_file _); try reflexivity. destruct (validate && negb _); reflexivity.
Qed.

Lemma loop_well fs : Forall (goes_well version args validate) fs ->
  inputs_loop version args validate fs = (flat_map out_of fs, 0).
Proof.
  induction fs as [|f fs IH]; intros W; [reflexivity|]. inversion W as [|? ? H1 H2]; subst.
  rewrite loop_step, (proj1 (well_iff f) H1), (IH H2). reflexivity.
Qed.

Lemma loop_fail A f B : Forall (goes_well version args validate) A -> ~ goes_well version args validate f ->
  inputs_loop version args validate (A ++ f :: B) = (flat_map out_of A ++ out_of f, 1).
Proof.
  intros W F. induction A as [|a A IH]; cbn [app].
  - rewrite loop_step. rewrite well_iff in F. destruct (well_b f); [congruence|]. reflexivity.
  - inversion W as [|? ? H1 H2]; subst. rewrite loop_step, (proj1 (well_iff a) H1), (IH H2). cbn [flat_map]. rewrite app_assoc. reflexivity.
Qed.

Lemma first_fail fs : Forall (goes_well version args validate) fs \/
  exists A f B, fs = A ++ f :: B /\ Forall (goes_well version args validate) A /\ ~ goes_well version args validate f.
Proof.
  induction fs as [|f fs IH]; [left; constructor|]. destruct (well_b f) eqn:E.
  - apply well_iff in E. destruct IH as [IH|(A & x & B & -> & H1 & H2)]; [left; constructor; assumption|].
    right. exists (f :: A), x, B. split; [reflexivity|]. split; [constructor; assumption | exact H2].
  - right. exists [], f, fs. split; [reflexivity|]. split; [constructor|]. rewrite well_iff, E. discriminate.
Qed.

Lemma writes_all fs wss : Forall2 (writes version args) fs wss -> List.concat wss = flat_map out_of fs.
Proof.
  induction 1 as [|f ws fs wss W _ IH]; [reflexivity|]. cbn. rewrite IH, (writes_unique _ _ W). reflexivity.
Qed.

End Loop.

Lemma sequence_some {A} (l : list (option A)) r : sequence l = Some r <-> l = map Some r.
Proof.
  split.
  - revert r. induction l as [|[a|] l IH]; intros r; cbn; try discriminate.
    + intros [= <-]. reflexivity.
    + destruct (sequence l) as [l'|]; [|discriminate]. intros [= <-]. cbn. f_equal. apply IH. reflexivity.
  - intros ->. induction r as [|a r IH]; cbn; [reflexivity|]. rewrite IH. reflexivity.
Qed.

(** The codes the command line asks to ignore. *)
Definition ignored (c : cli) (cs : list code) : Prop :=
  match c_ignore c with Some t => arg_lintcode t = Some cs | None => cs = [] end.

(** C59.  If all inputs exist, the codes are known and every input goes well, the status is 0
    and every input's output is written, in order. *)
Theorem C59_success version c fs cs :
  c_inputs c = map Some fs -> fs <> [] -> ignored c cs ->
  Forall (goes_well version (mkArgs (c_skip c) cs) (c_validate c)) fs ->
  forall wss, Forall2 (writes version (mkArgs (c_skip c) cs)) fs wss -> main version c = (List.concat wss, 0).
Proof.
  intros I NE G W wss WS. unfold main. rewrite (proj2 (sequence_some _ _) I). unfold ignored in G.
  rewrite (writes_all _ _ _ _ WS), <- (loop_well version _ (c_validate c) _ W).
  destruct (c_ignore c); rewrite ?G; destruct fs; congruence.
Qed.

(** The first input that does not go well ends the run with status 1: the outputs of the inputs
    before it and its own are written, nothing of the later ones is. *)
Theorem C59_failure version c A f B cs :
  c_inputs c = map Some (A ++ f :: B) -> ignored c cs ->
  Forall (goes_well version (mkArgs (c_skip c) cs) (c_validate c)) A ->
  ~ goes_well version (mkArgs (c_skip c) cs) (c_validate c) f ->
  forall wss ws, Forall2 (writes version (mkArgs (c_skip c) cs)) A wss ->
    writes version (mkArgs (c_skip c) cs) f ws -> main version c = (List.concat wss ++ ws, 1).
Proof.
  intros I G W F wss ws WS Wf. unfold main. rewrite (proj2 (sequence_some _ _) I). unfold ignored in G.
  rewrite (writes_all _ _ _ _ WS), (writes_unique _ _ _ _ Wf), <- (loop_fail version _ (c_validate c) _ _ B W F).
  destruct (c_ignore c); rewrite ?G; destruct A; cbn [app]; congruence.
Qed.

(** The status is 0 exactly if there are inputs, they exist, the ignored codes are known and
    every input goes well; otherwise it is not; a run that ends while reading the command line
    writes nothing. *)
Theorem C59_status version c :
  (snd (main version c) = 0 <->
   exists fs cs, c_inputs c = map Some fs /\ fs <> [] /\ ignored c cs
     /\ Forall (goes_well version (mkArgs (c_skip c) cs) (c_validate c)) fs)
  /\ (snd (main version c) = 0 \/ snd (main version c) = 1 \/ snd (main version c) = 2)
  /\ ((~ exists fs cs, c_inputs c = map Some fs /\ fs <> [] /\ ignored c cs) -> fst (main version c) = []).
Proof.
  assert (D : (exists fs cs, c_inputs c = map Some fs /\ fs <> [] /\ ignored c cs
                  /\ main version c = inputs_loop version (mkArgs (c_skip c) cs) (c_validate c) fs)
             \/ (forall fs cs, c_inputs c = map Some fs -> fs <> [] -> ~ ignored c cs)
                /\ (main version c = ([], 1) \/ main version c = ([], 2))).
  { unfold main. destruct (sequence (c_inputs c)) as [fs|] eqn:S.
    - pose proof (proj1 (sequence_some _ _) S) as SS. unfold ignored.
      destruct (match c_ignore c with Some t => arg_lintcode t | None => Some [] end) as [cs|] eqn:C.
      + destruct fs as [|f fs].
        * right. split; [|right; reflexivity]. intros fs cs' E NE. rewrite E in SS. destruct fs; [congruence|discriminate].
        * left. exists (f :: fs), cs. split; [exact SS|]. split; [discriminate|]. split; [destruct (c_ignore c); congruence|reflexivity].
      + right. split; [intros; destruct (c_ignore c); congruence|]. destruct fs; left; reflexivity.
    - right. split; [|left; reflexivity]. intros fs cs E. apply sequence_some in E. congruence. }
  destruct D as [(fs & cs & I & NE & G & M) | (NI & M)].
  - assert (U : forall fs' cs', c_inputs c = map Some fs' -> ignored c cs' -> fs' = fs /\ cs' = cs).
    { intros fs' cs' I' G'. split.
      - apply sequence_some in I, I'. congruence.
      - unfold ignored in G, G'. destruct (c_ignore c); congruence. }
    rewrite M. destruct (first_fail version (mkArgs (c_skip c) cs) (c_validate c) fs) as [W|(A & f & B & -> & W & F)].
    + rewrite (loop_well _ _ _ _ W). cbn. split; [|split].
      * split; [intros _|reflexivity]. exists fs, cs. auto.
      * left. reflexivity.
      * intros X. exfalso. apply X. exists fs, cs. auto.
    + rewrite (loop_fail _ _ _ _ _ _ W F). cbn. split; [|split].
      * split; [discriminate|]. intros (fs' & cs' & I' & _ & G' & W'). destruct (U _ _ I' G') as [-> ->].
        apply Forall_app in W' as [_ W']. inversion W'; subst. contradiction.
      * right; left. reflexivity.
      * intros X. exfalso. apply X. eexists _, cs. eauto.
  - assert (S : snd (main version c) <> 0 /\ fst (main version c) = []) by (destruct M as [-> | ->]; split; cbn; congruence).
    split; [|split].
    + split; [intros E; exfalso; apply S; exact E|]. intros (fs & cs & I & NE & G & _). exfalso. exact (NI _ _ I NE G).
    + right. destruct M as [-> | ->]; cbn; auto.
    + intros _. apply S.
Qed.

(** ** Output names *)

(** C60.  The file "<stem>.<ext>" gets the output "<stem>.json", as HTML file or as docx file. *)
Theorem C60_name f stem ext :
  named (f_name f) stem ext -> json_name (html_file f) = stem ++ utf8 ".json".
Proof. apply output_named. Qed.

(** Accepted inputs share their output exactly if they have the same stem. *)
Theorem C60_shared f g stem stem' ext ext' :
  named (f_name f) stem ext -> named (f_name g) stem' ext' ->
  (json_name (html_file f) = json_name (html_file g) <-> stem = stem').
Proof.
  intros F G. rewrite (output_named _ _ _ F), (output_named _ _ _ G). split; [apply app_inv_tail | congruence].
Qed.

Lemma final_app outs outs' n : final_file (outs ++ outs') n =
  match final_file outs' n with Some d => Some d | None => final_file outs n end.
Proof.
  unfold final_file. rewrite fold_left_app. generalize (fold_left (fun acc p => if seqb (fst p) n then Some (snd p) else acc) outs None).
  induction outs' as [|p outs' IH]; intros o; cbn; [reflexivity|]. rewrite IH. destruct (seqb (fst p) n); [|reflexivity].
  rewrite (IH (Some (snd p))). destruct (fold_left _ outs' None); reflexivity.
Qed.

Lemma final_none outs n : final_file outs n = None <-> Forall (fun p => fst p <> n) outs.
Proof.
  induction outs as [|p outs IH].
  - split; constructor.
  - change (p :: outs) with ([p] ++ outs). rewrite final_app, Forall_app. cbn [final_file fold_left].
    destruct (final_file outs n) eqn:E.
    + split; [discriminate|]. intros [_ H]. apply IH in H. discriminate.
    + unfold final_file. cbn. destruct (seqb_spec (fst p) n) as [<-|N].
      * split; [discriminate|]. intros [H _]. inversion H; congruence.
      * split; [|reflexivity]. intros _. split; [constructor; [exact N|constructor] | apply IH; reflexivity].
Qed.

(** After a run with status 0 the file <stem>.json has the document of the last input with that
    stem; later inputs overwrite earlier ones, others leave it alone. *)
Theorem C60_last_wins version c fs cs :
  c_inputs c = map Some fs -> ignored c cs -> snd (main version c) = 0 ->
  forall stem d,
    final_file (fst (main version c)) (stem ++ utf8 ".json") = Some d <->
    exists A f B ext r, fs = A ++ f :: B /\ named (f_name f) stem ext
      /\ processed version (mkArgs (c_skip c) cs) f r /\ r_file r = Some d
      /\ Forall (fun g => forall ext', ~ named (f_name g) stem ext') B.
Proof.
  intros I G S stem d. destruct (proj1 (C59_status version c)) as [K _].
  destruct (K S) as (fs' & cs' & I' & NE & G' & W).
  assert (fs' = fs) as -> by (apply sequence_some in I, I'; congruence).
  assert (cs' = cs) as -> by (unfold ignored in G, G'; destruct (c_ignore c); congruence).
  set (args := mkArgs (c_skip c) cs) in *.
  assert (M : main version c = (flat_map (out_of version args) fs, 0)).
  { unfold main. rewrite (proj2 (sequence_some _ _) I). unfold ignored in G. rewrite <- (loop_well version args (c_validate c) _ W).
    unfold args in *. destruct fs; [congruence|]. destruct (c_ignore c); [rewrite G | subst cs]; reflexivity. }
  rewrite M. cbn [fst]. clear M S K I I' G G' NE.
  assert (O : forall f, goes_well version args (c_validate c) f -> exists s e r x, named (f_name f) s e
            /\ processed version args f r /\ r_file r = Some x /\ out_of version args f = [(s ++ utf8 ".json", x)]).
  { intros f (r & x & P & _ & F & _). pose proof P as P'. apply processed_input in P' as [A ->].
    pose proof A as A'. destruct A as (s & A). assert (exists e, named (f_name f) s e) as (e & Nm) by (destruct A; eexists; eassumption).
    exists s, e, (parse_spec version args false None (as_input f)), x. split; [exact Nm|]. split; [exact P|]. split; [exact F|].
    unfold out_of. rewrite (proj1 (accepted_suffix f) A'), F, (output_named _ _ _ Nm). reflexivity. }
  assert (ON : forall f, goes_well version args (c_validate c) f ->
     (final_file (out_of version args f) (stem ++ utf8 ".json") = None <-> forall e, ~ named (f_name f) stem e)).
  { intros f Wf. destruct (O f Wf) as (s & e & r & x & Nm & _ & _ & ->). rewrite final_none. split.
    - intros H e' Nm'. inversion H as [|? ? H1 _]; subst. cbn in H1. apply H1. destruct (named_unique _ _ _ _ _ Nm Nm') as [-> _]. reflexivity.
    - intros H. constructor; [|constructor]. cbn. intros E. apply app_inv_tail in E. subst s. exact (H _ Nm). }
  assert (BN : forall B, Forall (goes_well version args (c_validate c)) B ->
     (final_file (flat_map (out_of version args) B) (stem ++ utf8 ".json") = None <->
      Forall (fun g => forall e, ~ named (f_name g) stem e) B)).
  { induction B as [|g B IHB]; intros WB; [split; constructor|]. inversion WB as [|? ? H1 H2]; subst. cbn [flat_map]. rewrite final_app.
    specialize (IHB H2). destruct (final_file (flat_map _ B) _) eqn:E.
    - split; [discriminate|]. intros H. inversion H as [|? ? H3 H4]; subst. apply IHB in H4. discriminate.
    - rewrite (ON g H1). split; [intros H; constructor; [exact H|apply IHB; reflexivity]|intros H; inversion H; assumption]. }
  split.
  - induction fs as [|f fs IH]; [discriminate|]. inversion W as [|? ? H1 H2]; subst. cbn [flat_map]. rewrite final_app.
    destruct (final_file (flat_map (out_of version args) fs) _) eqn:E.
    + intros Q. destruct (IH H2 Q) as (A & f' & B & ext & r & -> & R). exists (f :: A), f', B, ext, r. split; [reflexivity|exact R].
    + intros Q. exists [], f, fs. destruct (O f H1) as (s & e & r & x & Nm & P & F & OO). rewrite OO in Q. unfold final_file in Q. cbn [fold_left fst snd] in Q.
      destruct (seqb_spec (s ++ utf8 ".json") (stem ++ utf8 ".json")) as [Es|]; [|discriminate]. apply app_inv_tail in Es. subst s.
      injection Q as ->. exists e, r. split; [reflexivity|]. split; [exact Nm|]. split; [exact P|]. split; [exact F|].
      apply BN; assumption.
  - intros (A & f & B & ext & r & -> & Nm & P & F & L). apply Forall_app in W as [_ W]. inversion W as [|? ? H1 H2]; subst.
    rewrite flat_map_app. cbn [flat_map]. rewrite !final_app, (proj2 (BN B H2) L).
    destruct (O f H1) as (s & e & r' & x & Nm' & P' & F' & ->). destruct (named_unique _ _ _ _ _ Nm Nm') as [-> _].
    apply processed_input in P as [_ ->], P' as [_ ->]. unfold final_file. cbn [fold_left fst snd]. rewrite seqb_refl. congruence.
Qed.

(** ** --lint-ignore *)

Lemma split_char_pieces t : pieces t (split_char 44 t).
Proof.
  unfold pieces. induction t as [|x t (E & NE & C)]; cbn [split_char].
  - split; [reflexivity|]. split; [discriminate|]. constructor; [intros []|constructor].
  - destruct (N.eqb_spec x 44) as [->|X].
    + split; [|split; [discriminate|constructor; [intros []|exact C]]]. destruct (split_char 44 t); [congruence|].
      cbn [join app] in *. congruence.
    + destruct (split_char 44 t) as [|w ws]; [congruence|]. inversion C as [|? ? C1 C2]; subst.
      split; [|split; [discriminate|]].
      * destruct ws; cbn [join app] in *; congruence.
      * constructor; [|exact C2]. intros [->|H]; [congruence | exact (C1 H)].
Qed.

Lemma split_char_none s : ~ In 44 s -> split_char 44 s = [s].
Proof.
  induction s as [|x s IH]; intros H; cbn; [reflexivity|]. destruct (N.eqb_spec x 44) as [->|]; [exfalso; apply H; left; reflexivity|].
  rewrite IH; [reflexivity|]. intros X. apply H. right. exact X.
Qed.
Lemma split_char_app s t : ~ In 44 s -> split_char 44 (s ++ 44 :: t) = s :: split_char 44 t.
Proof.
  induction s as [|x s IH]; intros H; cbn; [reflexivity|]. destruct (N.eqb_spec x 44) as [->|]; [exfalso; apply H; left; reflexivity|].
  rewrite IH; [reflexivity|]. intros X. apply H. right. exact X.
Qed.

Lemma pieces_unique t ps : pieces t ps -> ps = split_char 44 t.
Proof.
  intros (-> & NE & C). induction ps as [|p ps IH]; [congruence|]. inversion C as [|? ? C1 C2]; subst.
  destruct ps as [|q ps]; [symmetry; apply split_char_none; exact C1|].
  change (join [44] (p :: q :: ps)) with (p ++ 44 :: join [44] (q :: ps)). rewrite split_char_app by exact C1.
  f_equal. apply IH; [discriminate | exact C2].
Qed.

(** The only texts that become the name of a code in upper case are its case variants. *)
Lemma upper_name w c : upper w = code_name c <-> any_case w (code_name c).
Proof.
  assert (T : forallb (fun p => match snd p with
      | [a] => negb ((a =? 79) || (a =? 84) || (a =? 76) || (a =? 86) || (a =? 82))
      | a :: b :: _ => negb (b =? 49) | [] => true end) upper_table = true) by (vm_compute; reflexivity).
  assert (L : forall x a, upper_char x = [a] -> (a = 79 \/ a = 84 \/ a = 76 \/ a = 86 \/ a = 82) -> same_letter x a).
  { intros x a U Ha. destruct (upper_char_cases x) as [[H1 H2]|[[H1 H2]|[H1 H2]]].
    - rewrite H2 in U. injection U as U. unfold same_letter. destruct ((97 <=? x) && (x <=? 122)) eqn:E; lia.
    - rewrite H2 in U. injection U as ->. left. reflexivity.
    - rewrite U in H2. rewrite forallb_forall in T. specialize (T _ H2). cbn in T. lia. }
  assert (Dg : forall x d r, In d (upper_char x) -> d < 128 -> ascii_letter d = false -> upper_char x = d :: r -> x = d /\ r = []).
  { intros x d r H1 H2 H3 U. assert (x = d) by (exact (upper_char_ascii _ _ H1 H2 H3)). subst x. split; [reflexivity|].
    unfold upper_char in U. destruct (N.ltb_spec d 128); [|lia]. congruence. }
  assert (NM : exists a b e f g, code_name c = [a; b; e; f; g] /\ (a = 79 \/ a = 84 \/ a = 76 \/ a = 86 \/ a = 82)
     /\ b = 49 /\ 48 <= e <= 57 /\ 48 <= f <= 57 /\ 48 <= g <= 57).
  { destruct c; vm_compute code_name; do 5 eexists; (split; [reflexivity|]); lia. }
  destruct NM as (a & b & e & f & g & -> & Ha & -> & He & Hf & Hg). split.
  - intros U.
    assert (DG : forall s d r, upper s = d :: r -> 48 <= d <= 57 -> exists s', s = d :: s' /\ upper s' = r).
    { intros s d r U' Hd. destruct s as [|x s]; [discriminate|]. cbn in U'. pose proof (upper_char_nonempty x) as NE.
      destruct (upper_char x) as [|y l] eqn:E; [congruence|]. cbn in U'. injection U' as -> U'.
      destruct (Dg x d l) as [-> ->]; [rewrite E; left; reflexivity | lia | unfold ascii_letter; lia | exact E|].
      exists s. split; [reflexivity | exact U']. }
    destruct w as [|x w]; [discriminate|]. cbn in U. destruct (upper_char x) as [|y l] eqn:E; [apply upper_char_nonempty in E as []|].
    cbn in U. injection U as -> U.
    assert (l = []) as ->.
    { destruct l as [|y l]; [reflexivity|]. cbn in U. injection U as -> U.
      destruct (upper_char_cases x) as [[H1 H2]|[[H1 H2]|[H1 H2]]]; try (rewrite E in H2; discriminate).
      rewrite E in H2. rewrite forallb_forall in T. specialize (T _ H2). discriminate. }
    cbn in U. destruct (DG _ _ _ U) as (w1 & -> & U1); [lia|]. destruct (DG _ _ _ U1) as (w2 & -> & U2); [lia|].
    destruct (DG _ _ _ U2) as (w3 & -> & U3); [lia|]. destruct (DG _ _ _ U3) as (w4 & -> & U4); [lia|].
    assert (w4 = []) as ->. { destruct w4 as [|z w4]; [reflexivity|]. cbn in U4. apply app_eq_nil in U4 as [U4 _]. apply upper_char_nonempty in U4 as []. }
    constructor; [apply L; assumption|]. repeat (constructor; [left; reflexivity|]). constructor.
  - assert (SL : forall x y, y < 97 -> same_letter x y -> upper_char x = [y]).
    { intros x y Y [->|(H & ->)]; unfold upper_char.
      - destruct (N.ltb_spec y 128); [|lia]. destruct ((97 <=? y) && (y <=? 122)) eqn:E; [lia | reflexivity].
      - destruct (N.ltb_spec (y + 32) 128); [|lia]. destruct ((97 <=? y + 32) && (y + 32 <=? 122)) eqn:E; [|lia]. f_equal. lia. }
    unfold any_case. intros F. repeat match goal with H : Forall2 _ _ (_ :: _) |- _ => inversion H; subst; clear H | H : Forall2 _ _ [] |- _ => inversion H; subst; clear H end.
    unfold upper. cbn [flat_map].
    repeat match goal with H : same_letter ?x ?y |- _ => rewrite (SL x y) by (first [exact H | lia]); clear H end. reflexivity.
Qed.

Lemma name_no_space w c : any_case w (code_name c) -> stops isspace w /\ stops isspace (rev w).
Proof.
  intros F. assert (H : forall x, In x w -> isspace x = false).
  { assert (X : forall y, In y (code_name c) -> 48 <= y <= 90).
    { assert (B : forallb (fun y => (48 <=? y) && (y <=? 90)) (code_name c) = true) by (destruct c; vm_compute; reflexivity).
      intros y Y. rewrite forallb_forall in B. specialize (B _ Y). cbn beta in B. lia. }
    intros x Hx. assert (exists y, In y (code_name c) /\ same_letter x y) as (y & Y & S).
    { clear X. induction F; [destruct Hx|]. destruct Hx as [->|Hx]; [eexists; split; [left; reflexivity|assumption]|].
      destruct (IHF Hx) as (y' & Y' & S'). exists y'. split; [right|]; assumption. }
    specialize (X y Y). assert (R : 48 <= x <= 122) by (unfold same_letter in S; lia).
    destruct (isspace x) eqn:E; [|reflexivity]. assert (A : forallb (fun x => negb (isspace x) || (x <? 48)) (map N.of_nat (seq 0 128)) = true) by (vm_compute; reflexivity).
    rewrite forallb_forall in A. assert (In x (map N.of_nat (seq 0 128))) as I by (apply in_map_iff; exists (N.to_nat x); rewrite in_seq; lia).
    specialize (A _ I). rewrite E in A. cbn in A. lia. }
  split.
  - destruct w as [|x w]; [exact I|]. cbn. apply H. left. reflexivity.
  - destruct (rev w) as [|x r] eqn:R; [exact I|]. cbn. apply H. apply in_rev. rewrite R. left. reflexivity.
Qed.

Lemma code_of_name_some s c : code_of_name s = Some c <-> s = code_name c.
Proof.
  unfold code_of_name. split.
  - intros F. apply find_some in F as [_ E]. apply seqb_eq in E. congruence.
  - intros ->. destruct c; vm_compute; reflexivity.
Qed.

Lemma spells_iff p c : code_of_name (upper (strip p)) = Some c <-> spells p c.
Proof.
  rewrite code_of_name_some, upper_name. unfold spells. split.
  - intros F. destruct (strip_sub isspace p) as (a & b & E & A & B). exists a, (strip p), b. split; [exact E|].
    rewrite forallb_forall in A, B. split; [apply Forall_forall; exact A|]. split; [apply Forall_forall; exact B | exact F].
  - intros (l & w & r & -> & L & R & F). destruct (name_no_space _ _ F) as [S1 S2].
    assert (NE : w <> []) by (intros ->; inversion F as [E|]; destruct c; discriminate).
    assert (L' : forallb isspace l = true) by (apply forallb_forall; rewrite Forall_forall in L; exact L).
    assert (R' : forallb isspace (rev r) = true) by (apply forallb_forall; intros x X; rewrite Forall_forall in R; apply R, in_rev; exact X).
    replace (strip (l ++ w ++ r)) with w; [exact F|]. unfold strip, strip_by, lstrip_by. rewrite drop_while_unique; [|exact L'|].
    + unfold rstrip_by. rewrite rev_app_distr, drop_while_unique; [rewrite rev_involutive; reflexivity | exact R' | exact S2].
    + destruct w as [|x w]; [congruence | exact S1].
Qed.

(** C61.  The argument is read as the codes [cs] exactly if the pieces between its commas spell
    them, in order. *)
Theorem C61_codes t cs :
  arg_lintcode t = Some cs <-> exists ps, pieces t ps /\ Forall2 spells ps cs.
Proof.
  unfold arg_lintcode. rewrite sequence_some.
  assert (K : forall ps, map (fun c => code_of_name (upper (strip c))) ps = map Some cs <-> Forall2 spells ps cs).
  { intros ps. revert cs. induction ps as [|p ps IH]; intros [|c cs]; cbn; split; try discriminate; try (intros H; inversion H; fail); try constructor.
    - injection H as H _. apply spells_iff. exact H.
    - injection H as _ H. apply IH. exact H.
    - intros H. inversion H; subst. f_equal; [apply spells_iff; assumption | apply IH; assumption]. }
  rewrite K. split.
  - intros H. exists (split_char 44 t). split; [apply split_char_pieces | exact H].
  - intros (ps & P & H). rewrite (pieces_unique _ _ P) in H. exact H.
Qed.

(** It raises exactly if some piece spells no code; then no input is processed. *)
Theorem C61_unknown t :
  (arg_lintcode t = None <-> exists ps p, pieces t ps /\ In p ps /\ forall c, ~ spells p c)
  /\ (arg_lintcode t = None -> forall version c, c_ignore c = Some t -> main version c = ([], 1)).
Proof.
  split.
  - unfold arg_lintcode. split.
    + intros H. exists (split_char 44 t). cut (exists p, In p (split_char 44 t) /\ forall c, ~ spells p c).
      { intros (p & P & S). exists p. split; [apply split_char_pieces | auto]. }
      revert H. generalize (split_char 44 t) as ps. induction ps as [|p ps IH]; cbn [map sequence]; [discriminate|].
      destruct (code_of_name (upper (strip p))) as [c|] eqn:E.
      * destruct (sequence (map _ ps)); [discriminate|]. intros H. destruct (IH H) as (q & Q & S). exists q. split; [right; exact Q | exact S].
      * intros _. exists p. split; [left; reflexivity|]. intros c S. apply spells_iff in S. congruence.
    + intros (ps & p & P & Q & S). rewrite (pieces_unique _ _ P) in Q.
      destruct (sequence _) as [cs|] eqn:E; [|reflexivity]. exfalso. apply sequence_some in E.
      assert (X : In (code_of_name (upper (strip p))) (map Some cs)) by (rewrite <- E; apply in_map_iff; exists p; auto).
      apply in_map_iff in X as (c & X & _). apply (S c), spells_iff. congruence.
  - intros H version c E. unfold main. rewrite E, H. destruct (sequence (c_inputs c)) as [[|]|]; reflexivity.
Qed.

(** ** Examples *)

Definition cli_html : file := mkFile (utf8 "nvm.v1.html") (Tree (o_doc [doc_good; doc_noid])) 0 [] false Unreadable.
Definition cli_docx : file := mkFile (utf8 "nvm.v1.docx") Unreadable 2 [0; 1] false (Tree (o_doc [doc_good])).
Definition cli_bad : file := mkFile (utf8 "other.html") Unreadable 0 [] false Unreadable.
Definition cli_txt : file := mkFile (utf8 "other.txt") (Tree (o_doc [doc_good])) 0 [] false Unreadable.

Example named_ex : named (f_name cli_html) (utf8 "nvm.v1") (utf8 "html") /\ named (f_name cli_docx) (utf8 "nvm.v1") (utf8 "docx").
Proof. split; (split; [reflexivity|]); repeat split; try discriminate; vm_compute; intuition discriminate. Qed.

Example goes_well_ex : goes_well (utf8 "1") o_args true cli_html /\ goes_well (utf8 "1") o_args true cli_docx
  /\ ~ goes_well (utf8 "1") o_args true cli_bad /\ ~ goes_well (utf8 "1") o_args true cli_txt.
Proof. rewrite !well_iff. vm_compute. intuition discriminate. Qed.

Example main_ex :
  let run := main (utf8 "1") (mkCli false None false [Some cli_html; Some cli_docx; Some cli_bad; Some cli_html]) in
  map fst (fst run) = [utf8 "nvm.v1.json"; utf8 "nvm.v1.json"; utf8 "other.json"] /\ snd run = 1.
Proof. vm_compute. split; reflexivity. Qed.

Example codes_ex : arg_lintcode (utf8 " t1000,V1003 ") = Some [T1000; V1003] /\ arg_lintcode (utf8 "T1000,") = None.
Proof. vm_compute. split; reflexivity. Qed.

Print Assumptions C59_success.
Print Assumptions C59_failure.
Print Assumptions C59_status.
Print Assumptions C60_name.
Print Assumptions C60_shared.
Print Assumptions C60_last_wins.
Print Assumptions C61_codes.
Print Assumptions C61_unknown.
