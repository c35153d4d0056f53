(** C71, continued: what the JSON document says about the figures. *)
From Coq Require Import NArith ZArith List Bool String Lia.
From Verif Require Import PyTables PyStr PyStrFacts Xml Json Lint RowIter Helpers Extract Document Output
  MFacts SpecText SpecFields SpecHeader SpecRows SpecTable SpecDoc SpecRun SpecOutput
  DocProofs DocFlow DocRuns Prop_Table Prop_Doc Prop_Output JsonText SpecJson JsonProofs Prop_Json SpecStage2.
Import ListNotations.
Local Open Scope string_scope.
Local Open Scope list_scope.

Lemma object_of l ms : NoDup (map fst l) -> (forall p, In p l <-> In p (map (fun m => (utf8 (fst m), snd m)) ms)) -> object (JObj l) ms.
Proof.
  intros N E. exists l. split; [reflexivity|]. split; [exact N|]. intros k v. rewrite E, in_map_iff. split.
  - intros ((n & v') & [= <- <-] & I). exists n. auto.
  - intros (n & -> & I). exists (n, v). auto.
Qed.
Ltac members := let q := fresh "q" in intros q; unfold says_about, optional, meta_json, brief_json; cbn [app map fst snd m_title m_fig m_parent en_meta en_body sf_label sf_range sf_brief vf_val vf_label vf_brief]; rewrite ?in_app_iff; cbn [In]; unfold kind_name; tauto.

Lemma range_says r : says_range r (range_json r).
Proof. destruct r; constructor; apply object_of; try keys; members. Qed.
Lemma sfield_says f : says_field f (sfield_json f).
Proof.
  exists (range_json (sf_range f)). split; [apply range_says|]. destruct f as [l r [b|]]; apply object_of; try keys; members.
Qed.
Lemma vfield_says f : says_value f (vfield_json f).
Proof. destruct f as [v l [b|]]; apply object_of; try keys; members. Qed.
Lemma entity_says e : says e (entity_json e).
Proof.
  destruct e as [m [k fs|fs]].
  - apply (sy_struct m k fs (map sfield_json fs)); [induction fs; constructor; auto using sfield_says|].
    unfold entity_json. destruct m as [[t|] i [p|]]; apply object_of; try keys; members.
  - apply (sy_values m fs (map vfield_json fs)); [induction fs; constructor; auto using vfield_says|].
    unfold entity_json. destruct m as [[t|] i [p|]]; apply object_of; try keys; members.
Qed.

(** The text of the file says of every figure produced, in order, exactly what was extracted. *)
Theorem C71_figures version args b inp root k v r es :
  html_of inp = Tree root -> converted inp ->
  first_attr root "data-spec" k -> first_attr root "data-revision" v ->
  parse_doc (get_parser (a_skip args) (lower k) (lower v)) root = (r, es) ->
  exists d j m js, r_file (parse_spec version args b None inp) = Some d /\ json_text (file_text d) j
    /\ object j [("meta", m); ("entities", JList js)] /\ Forall2 says (ents_of es) js.
Proof.
  intros HS CV K V E. destruct (C33_written version args b inp root k v r es HS CV K V E) as (d & F & M & _).
  exists d, (model_json d), (JObj (mo_meta d)), (mo_entities d). split; [exact F|]. split; [apply C71_text|].
  split; [apply object_of; [keys | members]|]. rewrite M. clear. induction (ents_of es); constructor; auto using entity_says.
Qed.
Print Assumptions C71_figures.

(** ** Nothing is lost *)

Definition key (n : string) (ms : list (string * json)) : list json := map snd (filter (fun m => seqb (utf8 n) (utf8 (fst m))) ms).
Lemma object_key j ms ms' n : object j ms -> object j ms' -> forall v, In v (key n ms) <-> In v (key n ms').
Proof.
  intros (l & -> & _ & E) (l' & [= <-] & _ & E') v. unfold key. rewrite !in_map_iff. split; intros ((a & w) & <- & I); apply filter_In in I as [I S]; cbn [fst snd] in *; apply seqb_eq in S.
  - assert (X : In (utf8 a, w) l) by (apply E; eauto). apply E' in X as (a' & EA & I'). exists (a', w). split; [reflexivity|]. apply filter_In. split; [exact I'|]. apply seqb_eq. cbn [fst]. congruence.
  - assert (X : In (utf8 a, w) l) by (apply E'; eauto). apply E in X as (a' & EA & I'). exists (a', w). split; [reflexivity|]. apply filter_In. split; [exact I'|]. apply seqb_eq. cbn [fst]. congruence.
Qed.
Lemma same_one (v w : json) : (forall x, In x [v] <-> In x [w]) -> v = w.
Proof. intros H. destruct (proj1 (H v) (or_introl eq_refl)) as [<-|[]]. reflexivity. Qed.
Lemma same_opt (a b : option str) : (forall x, In x (match a with Some s => [JStr s] | None => [] end) <-> In x (match b with Some s => [JStr s] | None => [] end)) -> a = b.
Proof.
  intros H. destruct a as [a|], b as [b|]; [apply same_one in H; congruence | destruct (proj1 (H _) (or_introl eq_refl)) | destruct (proj2 (H _) (or_introl eq_refl)) | reflexivity].
Qed.

Lemma range_one r r' j : says_range r j -> says_range r' j -> r = r'.
Proof.
  intros H H'. destruct H as [lo hi j O|lo hi j O|s]; inversion H' as [lo' hi' j' O'|lo' hi' j' O'|s']; subst; try reflexivity;
    try (exfalso; destruct O as (? & O & _); discriminate O); try (exfalso; destruct O' as (? & O' & _); discriminate O');
    match type of O with object _ [(_, ?a); (_, ?b)] => match type of O' with object _ [(_, ?c); (_, ?d)] =>
      assert (a = c) by (apply same_one; exact (object_key _ _ _ "low" O O')); assert (b = d) by (apply same_one; exact (object_key _ _ _ "high" O O')) end end; congruence.
Qed.
Lemma optional_key n ms x : key n ms = [] -> key n (ms ++ optional n x) = match x with Some s => [JStr s] | None => [] end.
Proof.
  intros H. unfold key in *. rewrite filter_app, map_app, H. destruct x; [|reflexivity]. cbn [optional filter fst]. rewrite seqb_refl. reflexivity.
Qed.
Lemma sfield_one f f' j : says_field f j -> says_field f' j -> f = f'.
Proof.
  intros (r & R & O) (r' & R' & O').
  assert (L : JStr (sf_label f) = JStr (sf_label f')) by (apply same_one; pose proof (object_key _ _ _ "label" O O') as H; destruct (sf_brief f), (sf_brief f'); exact H).
  assert (E : r = r') by (apply same_one; pose proof (object_key _ _ _ "range" O O') as H; destruct (sf_brief f), (sf_brief f'); exact H). subst r'.
  assert (B : sf_brief f = sf_brief f') by (apply same_opt; pose proof (object_key _ _ _ "brief" O O') as H; rewrite !optional_key in H by reflexivity; exact H).
  pose proof (range_one _ _ _ R R'). destruct f, f'; cbn in *; congruence.
Qed.
Lemma vfield_one f f' j : says_value f j -> says_value f' j -> f = f'.
Proof.
  intros O O'.
  assert (L : JStr (vf_label f) = JStr (vf_label f')) by (apply same_one; pose proof (object_key _ _ _ "label" O O') as H; destruct (vf_brief f), (vf_brief f'); exact H).
  assert (V : JStr (vf_val f) = JStr (vf_val f')) by (apply same_one; pose proof (object_key _ _ _ "val" O O') as H; destruct (vf_brief f), (vf_brief f'); exact H).
  assert (B : vf_brief f = vf_brief f') by (apply same_opt; pose proof (object_key _ _ _ "brief" O O') as H; rewrite !optional_key in H by reflexivity; exact H).
  destruct f, f'; cbn in *; congruence.
Qed.
Lemma about_one m m' t t' fs fs' j : object j (says_about m ++ [("type", t); ("fields", fs)]) -> object j (says_about m' ++ [("type", t'); ("fields", fs')]) ->
  m = m' /\ t = t' /\ fs = fs'.
Proof.
  intros O O'. destruct m as [ti i p], m' as [ti' i' p'].
  assert (T : t = t') by (apply same_one; pose proof (object_key _ _ _ "type" O O') as H; destruct ti, p, ti', p'; exact H).
  assert (F : fs = fs') by (apply same_one; pose proof (object_key _ _ _ "fields" O O') as H; destruct ti, p, ti', p'; exact H).
  assert (I : JStr i = JStr i') by (apply same_one; pose proof (object_key _ _ _ "fig_id" O O') as H; destruct ti, p, ti', p'; exact H).
  assert (A : ti = ti') by (apply same_opt; pose proof (object_key _ _ _ "title" O O') as H; destruct ti, p, ti', p'; exact H).
  assert (B : p = p') by (apply same_opt; pose proof (object_key _ _ _ "parent_fig_id" O O') as H; destruct ti, p, ti', p'; exact H).
  split; [congruence | auto].
Qed.
Lemma all_one {A} (P : A -> json -> Prop) : (forall a a' j, P a j -> P a' j -> a = a') -> forall l l' js, Forall2 P l js -> Forall2 P l' js -> l = l'.
Proof. intros H l l' js F. revert l'. induction F as [|a j l js PA F IH]; intros m F'; inversion F'; subst; [reflexivity|]. f_equal; eauto. Qed.
(** Different figures have different JSON. *)
Theorem C71_lossless e e' j : says e j -> says e' j -> e = e'.
Proof.
  intros H H'. destruct H as [m k fs js j F O|m fs js j F O]; inversion H' as [m' k' fs' js' j' F' O' E1 E2|m' fs' js' j' F' O' E1 E2]; subst.
  - destruct (about_one _ _ _ _ _ _ _ O O') as (-> & T & [= <-]). assert (k = k') as <- by (destruct k, k'; try reflexivity; discriminate T).
    rewrite (all_one says_field sfield_one _ _ _ F F'). reflexivity.
  - destruct (about_one _ _ _ _ _ _ _ O O') as (_ & T & _). destruct k; discriminate T.
  - destruct (about_one _ _ _ _ _ _ _ O O') as (_ & T & _). destruct k'; discriminate T.
  - destruct (about_one _ _ _ _ _ _ _ O O') as (-> & _ & [= <-]). rewrite (all_one says_value vfield_one _ _ _ F F'). reflexivity.
Qed.
Print Assumptions C71_lossless.

(** A run with three figures: what the JSON says about the last one, a titled one with two fields. *)
Example C71_figures_ex : exists d j m j1 j2 j3 e, r_file (parse_spec (utf8 "1") o_args true None o_input) = Some d /\ json_text (file_text d) j
  /\ object j [("meta", m); ("entities", JList [j1; j2; j3])] /\ says e j3
  /\ m_title (en_meta e) = Some (utf8 "Figure 3: G") /\ match en_body e with BStruct _ fs => List.length fs | BValues fs => List.length fs end = 2%nat.
Proof.
  destruct (parse_doc (get_parser (a_skip o_args) (lower (utf8 "NVM")) (lower (utf8 "9.9"))) (o_doc [doc_good; doc_noid])) as [r es] eqn:E.
  destruct (C71_figures (utf8 "1") o_args true o_input _ _ _ _ _ eq_refl Logic.I (proj1 opened) (proj2 opened) E) as (d & j & m & js & F & J & O & A).
  assert (X : exists e1 e2 e3, ents_of es = [e1; e2; e3] /\ m_title (en_meta e3) = Some (utf8 "Figure 3: G")
     /\ match en_body e3 with BStruct _ fs => List.length fs | BValues fs => List.length fs end = 2%nat).
  { apply (f_equal snd) in E. cbn [snd] in E. rewrite <- E. vm_compute. do 3 eexists. split; [reflexivity | split; reflexivity]. }
  destruct X as (e1 & e2 & e3 & X & T & L). rewrite X in A. inversion A as [|? j1 ? ? _ A1]; subst. inversion A1 as [|? j2 ? ? _ A2]; subst. inversion A2 as [|? j3 ? ? S3 A3]; subst. inversion A3; subst.
  exists d, j, m, j1, j2, j3, e3. auto 10.
Qed.
