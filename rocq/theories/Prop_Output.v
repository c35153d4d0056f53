(** Properties of the JSON document and of progress reporting: C32 (ignored codes), C33 (what
    is written, on success and on failure), C34 (progress reporting), C35 (announced total).
    The vocabulary is in SpecOutput.v. *)
From Coq Require Import NArith ZArith List Bool String Lia ZifyBool ZifyN.
From Verif Require Import PyTables PyStr PyStrFacts Xml Json Lint RowIter Helpers Extract Document Output
  MFacts SpecText SpecFields SpecHeader SpecRows SpecTable SpecDoc SpecRun SpecOutput
  DocProofs DocFlow DocRuns Prop_Table Prop_Doc.
Import ListNotations.
Local Open Scope list_scope.
Local Open Scope N_scope.

Lemma jget_set k v k' l : jget k' (dict_set k v l) = if seqb k k' then Some v else jget k' l.
Proof.
  unfold jget. induction l as [|[a b] l IH]; cbn [dict_set find fst].
  - destruct (seqb k k'); reflexivity.
  - destruct (seqb_spec k a) as [<-|N]; cbn [find fst].
    + destruct (seqb k k'); reflexivity.
    + destruct (seqb_spec a k') as [<-|N']; [|exact IH]. destruct (seqb_spec k a); congruence.
Qed.

(** The entities and what is done for them in one go. *)
Lemma write_none b total evs : forall i d, write_events b total i evs None d =
  (if b then map (fun j => (PJson, i + N.of_nat j, total)) (seq 0 (List.length (ents_of evs))) else [],
   mkModel (mo_meta d) (mo_entities d ++ map entity_json (ents_of evs)), Some None).
Proof.
  induction evs as [|[l|e] evs IH]; intros i d; cbn [write_events].
  - cbn. rewrite app_nil_r. destruct b, d; reflexivity.
  - exact (IH i d).
  - change (ents_of (EvEnt e :: evs)) with (e :: ents_of evs). destruct b; cbn [take_one]; rewrite IH; cbn [write_entity mo_meta mo_entities map List.length seq].
    + rewrite <- app_assoc. cbn [app]. f_equal. f_equal. f_equal; [f_equal; f_equal; lia|].
      rewrite <- seq_shift, map_map. apply map_ext. intros a. do 2 f_equal. lia.
    + rewrite <- app_assoc. reflexivity.
Qed.

Lemma write_some total evs k : forall i d, (0 < k)%nat -> exists rs d' o,
  write_events true total i evs (Some (N.of_nat k)) d = (rs, d', o)
  /\ mo_meta d' = mo_meta d
  /\ ((k <= List.length (ents_of evs))%nat /\ o = None
       /\ rs = map (fun j => (PJson, i + N.of_nat j, total)) (seq 0 k)
       /\ mo_entities d' = mo_entities d ++ map entity_json (firstn (k - 1) (ents_of evs))
      \/ (List.length (ents_of evs) < k)%nat /\ o <> None
         /\ rs = map (fun j => (PJson, i + N.of_nat j, total)) (seq 0 (List.length (ents_of evs)))
         /\ mo_entities d' = mo_entities d ++ map entity_json (ents_of evs)).
Proof.
  revert k. induction evs as [|[l|e] evs IH]; intros k i d K.
  - exists [], d, (Some (Some (N.of_nat k))). split; [reflexivity|]. split; [reflexivity|]. right. cbn. rewrite app_nil_r.
    repeat split; [exact K | discriminate].
  - exact (IH k i d K).
  - change (ents_of (EvEnt e :: evs)) with (e :: ents_of evs). cbn [write_events take_one].
    destruct (N.leb_spec (N.of_nat k) 1).
    + assert (k = 1%nat) as -> by lia. exists [(PJson, i, total)], d, None. split; [reflexivity|]. split; [reflexivity|]. left. cbn.
      rewrite app_nil_r. repeat split; [lia|]. do 3 f_equal. lia.
    + replace (N.pred (N.of_nat k)) with (N.of_nat (k - 1)) by lia.
      destruct (IH (k - 1)%nat (N.succ i) (write_entity (entity_json e) d)) as (rs & d' & o & E & M & C); [lia|].
      rewrite E. exists ((PJson, i, total) :: rs), d', o. split; [reflexivity|]. split; [exact M|].
      assert (RR : forall m, (PJson, i, total) :: map (fun j => (PJson, N.succ i + N.of_nat j, total)) (seq 0 m)
                    = map (fun j => (PJson, i + N.of_nat j, total)) (seq 0 (S m))).
      { intros m. cbn [seq map]. f_equal; [do 2 f_equal; lia|]. rewrite <- seq_shift, map_map. apply map_ext. intros a. do 2 f_equal. lia. }
      destruct C as [(C1 & C2 & C3 & C4) | (C1 & C2 & C3 & C4)]; [left | right]; cbn [List.length].
      * split; [lia|]. split; [exact C2|]. split.
        { rewrite C3, RR. do 3 f_equal. lia. }
        { rewrite C4. cbn [write_entity mo_entities]. rewrite <- app_assoc. f_equal. destruct k as [|[|k]]; [lia | lia |]. cbn [Nat.sub firstn map app]. rewrite Nat.sub_0_r. reflexivity. }
      * split; [lia|]. split; [exact C2|]. split.
        { rewrite C3. apply RR. }
        { rewrite C4. cbn [write_entity mo_entities]. rewrite <- app_assoc. reflexivity. }
Qed.

(** Reading the head of the HTML file. *)
Lemma meta_attrs_flat a root : meta_attrs (utf8 a) root =
  flat_map (fun m => match attr (utf8 a) m with Some v => [v] | None => [] end)
    (flat_map (children (utf8 "meta")) (children (utf8 "head") root)).
Proof. unfold meta_attrs. induction (children (utf8 "head") root) as [|h l IH]; [reflexivity|]. cbn [flat_map]. rewrite flat_map_app, IH. reflexivity. Qed.
Lemma first_attr_iff a root v : first_attr root a v <-> exists r, meta_attrs (utf8 a) root = v :: r.
Proof.
  rewrite meta_attrs_flat. unfold first_attr. generalize (flat_map (children (utf8 "meta")) (children (utf8 "head") root)). intros l. split.
  - intros (A & m & B & -> & H & F). induction F as [|x A HX F IH]; cbn [app flat_map].
    + rewrite H. eexists. reflexivity.
    + rewrite HX. exact IH.
  - intros [r H]. induction l as [|m l IH]; [discriminate|]. cbn [flat_map] in H. destruct (attr (utf8 a) m) as [w|] eqn:E.
    + injection H as <- _. exists [], m, l. repeat split; [exact E | constructor].
    + destruct (IH H) as (A & m' & B & -> & H1 & H2). exists (m :: A), m', B. repeat split; [exact H1 | constructor; assumption].
Qed.
Lemma no_attr_iff a root : no_attr root a <-> meta_attrs (utf8 a) root = [].
Proof.
  unfold no_attr, meta_attrs. split.
  - intros H. apply flat_map_nil. intros h Hh. apply flat_map_nil. intros m Hm. rewrite (H h m Hh Hm). reflexivity.
  - intros H h m Hh Hm. destruct (attr (utf8 a) m) as [v|] eqn:E; [|reflexivity]. exfalso.
    assert (I : In v (flat_map (fun h => flat_map (fun m => match attr (utf8 a) m with Some v => [v] | None => [] end)
                       (children (utf8 "meta") h)) (children (utf8 "head") root))).
    { apply in_flat_map. exists h. split; [exact Hh|]. apply in_flat_map. exists m. split; [exact Hm|]. rewrite E. left. reflexivity. }
    rewrite H in I. exact I.
Qed.

(** ** C33 *)

(** The meta keys of a document. *)
Definition doc_meta (version key rev : str) : list (str * json) :=
  [(utf8 "specification", JStr key); (utf8 "revision", JStr rev);
   (utf8 "format version", JInt 1); (utf8 "spex version", JStr version)].

Lemma json_stage_none version args b s root k v r es :
  s = Tree root -> first_attr root "data-spec" k -> first_attr root "data-revision" v ->
  parse_doc (get_parser (a_skip args) (lower k) (lower v)) root = (r, es) ->
  json_stage version args b None s =
    (if b then map (fun j => (PJson, N.of_nat j, num_figures root)) (seq 0 (List.length (ents_of es))) else [],
     mkModel (doc_meta version (lower k) (lower v)
              ++ match r with Ok _ => [(utf8 "lint", JList (reported_lint (a_ignore args) es))] | _ => [] end)
       (map entity_json (ents_of es)),
     match r with Ok _ => Finished | Exn e => Failed (PDoc e) | OutOfFuel => Failed (PDoc ERuntime) end).
Proof.
  intros -> [rk K] %first_attr_iff [rv V] %first_attr_iff E. unfold json_stage, open_doc. rewrite K, V, E, write_none.
  destruct r as [[]|e|]; reflexivity.
Qed.

(** The file holds all entities produced, the four meta keys, and the lint list exactly if the
    document was processed without an exception; otherwise that exception is raised again. *)
Theorem C33_written version args b inp root k v r es :
  html_of inp = Tree root -> converted inp ->
  first_attr root "data-spec" k -> first_attr root "data-revision" v ->
  parse_doc (get_parser (a_skip args) (lower k) (lower v)) root = (r, es) ->
  exists d, r_file (parse_spec version args b None inp) = Some d
    /\ mo_entities d = map entity_json (ents_of es)
    /\ ((r = Ok tt /\ r_end (parse_spec version args b None inp) = Finished
         /\ exists l, mo_meta d = doc_meta version (lower k) (lower v) ++ [(utf8 "lint", JList l)]
            /\ (a_ignore args = [] -> l = map lint_json (lints_of es)))
        \/ exists e, r = Exn e /\ r_end (parse_spec version args b None inp) = Failed (PDoc e)
            /\ mo_meta d = doc_meta version (lower k) (lower v)).
Proof.
  intros HS CV K V E.
  assert (NF : r <> OutOfFuel) by (pose proof (C37_terminates _ root (tame_parsers (a_skip args) (lower k) (lower v))) as T; rewrite E in T; exact T).
  assert (JS := fun s H => json_stage_none version args b s root k v r es H K V E).
  assert (HR : forall total is, html_reports total is None = (map (fun i => (PHtml, i, total)) is, Some None)).
  { intros total is. induction is as [|i is IH]; [reflexivity|]. cbn. rewrite IH. reflexivity. }
  assert (G : exists rs, parse_spec version args b None inp = mkRun rs
     (Some (mkModel (doc_meta version (lower k) (lower v)
              ++ match r with Ok _ => [(utf8 "lint", JList (reported_lint (a_ignore args) es))] | _ => [] end)
       (map entity_json (ents_of es))))
     (match r with Ok _ => Finished | Exn e => Failed (PDoc e) | OutOfFuel => Failed (PDoc ERuntime) end)).
  { destruct inp as [s | total is raised s]; cbn [html_of converted] in HS, CV; unfold parse_spec.
    - rewrite (JS s HS). eexists. reflexivity.
    - subst raised. destruct b; [rewrite HR|]; rewrite (JS s HS); eexists; reflexivity. }
  destruct G as [rs ->]. cbn [r_file r_end]. eexists. split; [reflexivity|]. split; [reflexivity|]. cbn [mo_meta].
  destruct r as [[]|e|]; [left | right | congruence].
  - repeat (split; [reflexivity|]). eexists. split; [reflexivity|]. intros ->. unfold reported_lint. f_equal.
    induction (lints_of es) as [|l ls IH]; [reflexivity|]. cbn. f_equal. exact IH.
  - exists e. repeat (split; [reflexivity|]). apply app_nil_r.
Qed.

(** A file that cannot be read or does not name its specification gives an empty document. *)
Theorem C33_not_opened version args b inp :
  converted inp ->
  (html_of inp = Unreadable
   \/ exists root, html_of inp = Tree root /\ (no_attr root "data-spec" \/ no_attr root "data-revision")) ->
  r_file (parse_spec version args b None inp) = Some (mkModel [] [])
  /\ exists e, r_end (parse_spec version args b None inp) = Failed e.
Proof.
  intros CV H.
  assert (O : exists e, open_doc (html_of inp) = inl e).
  { destruct H as [-> | (root & -> & H)]; [eexists; reflexivity|]. rewrite !no_attr_iff in H. unfold open_doc.
    destruct H as [-> | H]; [eexists; reflexivity|]. rewrite H. destruct (meta_attrs (utf8 "data-spec") root); eexists; reflexivity. }
  destruct O as [e O].
  assert (HR : forall total is, html_reports total is None = (map (fun i => (PHtml, i, total)) is, Some None)).
  { intros total is. induction is as [|i is IH]; [reflexivity|]. cbn. rewrite IH. reflexivity. }
  destruct inp as [s | total is raised s]; cbn [html_of converted] in O, CV; unfold parse_spec, json_stage; rewrite O.
  - cbn. eauto.
  - subst raised. destruct b; [rewrite HR|]; cbn; eauto.
Qed.

Lemma json_stage_lint version args b w s rs d e : json_stage version args b w s = (rs, d, e) ->
  (meta_value d "lint" <> None <-> e = Finished).
Proof.
  unfold json_stage. destruct (open_doc s) as [x | [[root k] v]].
  { intros [= <- <- <-]. cbn. split; [congruence | discriminate]. }
  destruct (parse_doc _ root) as [r es].
  assert (WM : forall total i evs w d, mo_meta (snd (fst (write_events b total i evs w d))) = mo_meta d).
  { intros total i evs. revert i. induction evs as [|[l|x] evs IH]; intros i w0 d0; cbn [write_events]; [reflexivity | apply IH |].
    destruct b; [|rewrite IH; reflexivity]. destruct (take_one w0) as [w'|]; [|reflexivity].
    specialize (IH (N.succ i) w' (write_entity (entity_json x) d0)). destruct (write_events true total (N.succ i) evs w' _) as [[q1 q2] q3]. exact IH. }
  match goal with |- context [write_events b ?t ?i es w ?d0] => specialize (WM t i es w d0); destruct (write_events b t i es w d0) as [[rs' d'] o] end.
  cbn in WM. assert (NL : meta_value d' "lint" = None) by (unfold meta_value; rewrite WM; reflexivity).
  destruct o as [w'|]; [destruct r as [u|x|]|]; intros [= <- <- <-]; try (rewrite NL; split; [congruence | discriminate]).
  unfold meta_value, write_meta. cbn [mo_meta]. rewrite jget_set. split; [reflexivity|]. discriminate.
Qed.

(** In every run, however it ends: the lint list is there exactly if the run finished. *)
Theorem C33_complete version args b w inp :
  match r_file (parse_spec version args b w inp) with
  | Some d => meta_value d "lint" <> None <-> r_end (parse_spec version args b w inp) = Finished
  | None => r_end (parse_spec version args b w inp) <> Finished
  end.
Proof.
  assert (JS : forall w s rs0, match r_file (let '(rs, d, e) := json_stage version args b w s in mkRun (rs0 ++ rs) (Some d) e) with
     | Some d => meta_value d "lint" <> None <-> r_end (let '(rs, d, e) := json_stage version args b w s in mkRun (rs0 ++ rs) (Some d) e) = Finished
     | None => r_end (let '(rs, d, e) := json_stage version args b w s in mkRun (rs0 ++ rs) (Some d) e) <> Finished end).
  { intros w0 s rs0. destruct (json_stage version args b w0 s) as [[rs d] e] eqn:E. cbn. eapply json_stage_lint, E. }
  unfold parse_spec. destruct w as [[|k]|]; [cbn; discriminate| |].
  - destruct inp as [s | total is raised s]; [apply (JS _ s [])|].
    match goal with |- context [if b then html_reports total is ?u else ?z] => destruct (if b then html_reports total is u else z) as [rs [w'|]] end; [|cbn; discriminate].
    destruct raised; [cbn; discriminate|]. apply JS.
  - destruct inp as [s | total is raised s]; [apply (JS _ s [])|].
    match goal with |- context [if b then html_reports total is ?u else ?z] => destruct (if b then html_reports total is u else z) as [rs [w'|]] end; [|cbn; discriminate].
    destruct raised; [cbn; discriminate|]. apply JS.
Qed.

(** ** C32 *)
Lemma code_name_inj c c' : code_name c = code_name c' -> c = c'.
Proof. destruct c, c'; intros H; try reflexivity; exfalso; vm_compute in H; discriminate. Qed.

Lemma reported_without ig evs : without (has_code ig) (reported_lint [] evs) (reported_lint ig evs).
Proof.
  unfold reported_lint. induction (lints_of evs) as [|l ls IH]; [constructor|].
  change (filter (fun l : lint => negb (smem (code_name (l_code l)) (map code_name []))) (l :: ls))
    with (l :: filter (fun l : lint => negb (smem (code_name (l_code l)) (map code_name []))) ls).
  cbn [filter map].
  assert (HC : has_code ig (lint_json l) <-> In (l_code l) ig).
  { unfold has_code, lint_json. split.
    - intros (c & x & I1 & [= <-] & G). cbn in G. injection G as G. apply code_name_inj in G as <-. exact I1.
    - intros I1. eexists _, _. split; [exact I1|]. split; reflexivity. }
  destruct (smem (code_name (l_code l)) (map code_name ig)) eqn:E; cbn [negb].
  - apply wo_drop; [|exact IH]. apply HC. unfold smem in E. apply existsb_exists in E as (n & I1 & E).
    apply in_map_iff in I1 as (c & <- & I1). destruct (seqb_spec (code_name (l_code l)) (code_name c)) as [N|N]; [|discriminate].
    apply code_name_inj in N as <-. exact I1.
  - apply wo_keep; [|exact IH]. intros K. apply HC in K. unfold smem in E.
    assert (X : existsb (seqb (code_name (l_code l))) (map code_name ig) = true).
    { apply existsb_exists. exists (code_name (l_code l)). split; [apply in_map, K|]. destruct (seqb_spec (code_name (l_code l)) (code_name (l_code l))); congruence. }
    unfold smem in E. congruence.
Qed.

(** Ignoring codes changes nothing but the lint list, which loses exactly these entries. *)
Theorem C32_ignore version skip ig b w inp :
  let r := parse_spec version (mkArgs skip ig) b w inp in
  let r0 := parse_spec version (mkArgs skip []) b w inp in
  r_reports r = r_reports r0 /\ r_end r = r_end r0
  /\ match r_file r, r_file r0 with
     | Some d, Some d0 => same_but_lint d d0 /\ without (has_code ig) (lint_list d0) (lint_list d)
     | None, None => True
     | _, _ => False
     end.
Proof.
  cbn zeta.
  assert (JS : forall w s rs0,
    let r := (let '(rs, d, e) := json_stage version (mkArgs skip ig) b w s in mkRun (rs0 ++ rs) (Some d) e) in
    let r0 := (let '(rs, d, e) := json_stage version (mkArgs skip []) b w s in mkRun (rs0 ++ rs) (Some d) e) in
    r_reports r = r_reports r0 /\ r_end r = r_end r0
    /\ match r_file r, r_file r0 with
     | Some d, Some d0 => same_but_lint d d0 /\ without (has_code ig) (lint_list d0) (lint_list d)
     | None, None => True
     | _, _ => False
     end).
  { intros w0 s rs0. cbn zeta. unfold json_stage. destruct (open_doc s) as [x | [[root k] v]].
    { cbn. repeat split; constructor. }
    cbn [a_skip a_ignore]. destruct (parse_doc _ root) as [r es].
    assert (WM : forall total i evs w d, mo_meta (snd (fst (write_events b total i evs w d))) = mo_meta d).
    { intros total i evs. revert i. induction evs as [|[l|x] evs IH]; intros i w1 d0; cbn [write_events]; [reflexivity | apply IH |].
      destruct b; [|rewrite IH; reflexivity]. destruct (take_one w1) as [w'|]; [|reflexivity].
      specialize (IH (N.succ i) w' (write_entity (entity_json x) d0)). destruct (write_events true total (N.succ i) evs w' _) as [[q1 q2] q3]. exact IH. }
    match goal with |- context [write_events b ?t ?i es w0 ?d0] => specialize (WM t i es w0 d0); destruct (write_events b t i es w0 d0) as [[rs' d'] o] end.
    cbn in WM. assert (NL : lint_list d' = []) by (unfold lint_list, meta_value; rewrite WM; reflexivity).
    destruct o as [w'|]; [destruct r as [u|x|]|]; cbn [r_reports r_end r_file]; (split; [reflexivity|]); (split; [reflexivity|]);
      try (split; [split; [reflexivity | reflexivity] | rewrite NL; constructor]).
    split.
    - split; [reflexivity|]. intros q Q. unfold write_meta. cbn [mo_meta]. rewrite !jget_set.
      destruct (seqb_spec (utf8 "lint") q) as [A|A]; [congruence | reflexivity].
    - unfold lint_list, meta_value, write_meta. cbn [mo_meta]. rewrite !jget_set. apply reported_without. }
  unfold parse_spec. destruct w as [[|k]|]; [cbn; auto| |].
  - destruct inp as [s | total is raised s]; [apply (JS _ s [])|].
    match goal with |- context [if b then html_reports total is ?u else ?z] => destruct (if b then html_reports total is u else z) as [rs [w'|]] end; [|cbn; auto].
    destruct raised; [cbn; auto|]. apply JS.
  - destruct inp as [s | total is raised s]; [apply (JS _ s [])|].
    match goal with |- context [if b then html_reports total is ?u else ?z] => destruct (if b then html_reports total is u else z) as [rs [w'|]] end; [|cbn; auto].
    destruct raised; [cbn; auto|]. apply JS.
Qed.

(** ** C34 *)
Lemma html_reports_none total is : html_reports total is None = (map (fun i => (PHtml, i, total)) is, Some None).
Proof. induction is as [|i is IH]; [reflexivity|]. cbn. rewrite IH. reflexivity. Qed.
Lemma html_reports_some total is : forall k, (0 < k)%nat ->
  html_reports total is (Some (N.of_nat k)) =
    if (List.length is <? k)%nat then (map (fun i => (PHtml, i, total)) is, Some (Some (N.of_nat (k - List.length is))))
    else (map (fun i => (PHtml, i, total)) (firstn k is), None).
Proof.
  induction is as [|i is IH]; intros k K; cbn [html_reports List.length].
  - rewrite (proj2 (Nat.ltb_lt 0 k) K). cbn. do 3 f_equal. lia.
  - cbn [take_one]. destruct (N.leb_spec (N.of_nat k) 1).
    + assert (k = 1%nat) as -> by lia. reflexivity.
    + replace (N.pred (N.of_nat k)) with (N.of_nat (k - 1)) by lia. rewrite IH by lia.
      destruct k as [|k]; [lia|]. cbn [Nat.sub]. rewrite Nat.sub_0_r.
      destruct (Nat.ltb_spec (List.length is) k), (Nat.ltb_spec (S (List.length is)) (S k)); try lia; reflexivity.
Qed.

Lemma json_stage_some version args s k : (0 < k)%nat ->
  let '(rf, df, ef) := json_stage version args true None s in
  ((List.length rf < k)%nat /\ json_stage version args true (Some (N.of_nat k)) s = (rf, df, ef))
  \/ ((k <= List.length rf)%nat /\ exists d,
       json_stage version args true (Some (N.of_nat k)) s = (firstn k rf, d, Failed PClosed)
       /\ mo_entities d = firstn (k - 1) (mo_entities df) /\ meta_value d "lint" = None).
Proof.
  intros K. unfold json_stage. destruct (open_doc s) as [x | [[root key] v]]; [left; auto|].
  destruct (parse_doc _ root) as [r es].
  match goal with |- context [write_events true ?t ?i es None ?d] => set (d0 := d) end.
  assert (E0 : mo_entities d0 = []) by reflexivity.
  assert (L0 : meta_value d0 "lint" = None) by reflexivity. clearbody d0.
  rewrite write_none, E0.
  destruct (write_some (num_figures root) es k 0 d0 K) as (rs & d' & o & -> & M & C). rewrite E0 in C. cbn [app] in *.
  set (full := map (fun j => (PJson, 0 + N.of_nat j, num_figures root)) (seq 0 (List.length (ents_of es)))) in *.
  assert (FL : List.length full = List.length (ents_of es)) by (unfold full; rewrite map_length, seq_length; reflexivity).
  destruct C as [(C1 & -> & -> & C4) | (C1 & C2 & -> & C4)].
  - assert (FK : firstn k full = map (fun j => (PJson, 0 + N.of_nat j, num_figures root)) (seq 0 k)).
    { unfold full. rewrite firstn_map. f_equal. clear - C1. generalize 0%nat at 1 2. revert k C1.
      induction (List.length (ents_of es)) as [|n IH]; intros k C a; [assert (k = 0%nat) as -> by lia; reflexivity|].
      destruct k as [|k]; [reflexivity|]. cbn. f_equal. apply IH. lia. }
    rewrite <- FK. destruct r; right; (split; [rewrite ?map_length, ?seq_length; lia|]); exists d'; (split; [reflexivity|]); cbn [mo_entities write_meta];
      (split; [rewrite C4, firstn_map; reflexivity | unfold meta_value; rewrite M; exact L0]).
  - destruct o as [w'|]; [|congruence].
    assert (ED : d' = mkModel (mo_meta d0) (map entity_json (ents_of es))) by (destruct d' as [dm de]; cbn [mo_meta mo_entities] in M, C4; subst; reflexivity).
    rewrite ED. destruct r; left; (split; [rewrite ?map_length, ?seq_length; lia | reflexivity]).
Qed.

(** Driven to the end, progress reporting does not change the document or the outcome. *)
Theorem C34_same_result version args inp :
  r_file (parse_spec version args true None inp) = r_file (parse_spec version args false None inp)
  /\ r_end (parse_spec version args true None inp) = r_end (parse_spec version args false None inp).
Proof.
  assert (JS : forall s, snd (json_stage version args true None s) = snd (json_stage version args false None s)
     /\ snd (fst (json_stage version args true None s)) = snd (fst (json_stage version args false None s))).
  { intros s. unfold json_stage. destruct (open_doc s) as [x | [[root k] v]]; [auto|]. destruct (parse_doc _ root) as [r es].
    rewrite !write_none. destruct r; auto. }
  unfold parse_spec. destruct inp as [s | total is raised s].
  - destruct (JS s) as [J1 J2]. destruct (json_stage version args true None s) as [[? ?] ?], (json_stage version args false None s) as [[? ?] ?]. cbn in *. subst. auto.
  - rewrite html_reports_none. destruct raised; [auto|]. destruct (JS s) as [J1 J2].
    destruct (json_stage version args true None s) as [[? ?] ?], (json_stage version args false None s) as [[? ?] ?]. cbn in *. subst. auto.
Qed.

(** The json phase reports 0, 1, 2, ..., one report for each entity of the document, with the
    number of tables of the document as total. *)
Theorem C34_reports version args inp d :
  r_file (parse_spec version args true None inp) = Some d ->
  exists total, of_phase PJson (r_reports (parse_spec version args true None inp))
                = map (fun i => (PJson, i, total)) (upto (List.length (mo_entities d)))
    /\ forall root, html_of inp = Tree root -> total = N.of_nat (List.length (figures root)).
Proof.
  assert (JS : forall s rs d e, json_stage version args true None s = (rs, d, e) -> exists total,
     rs = map (fun i => (PJson, i, total)) (upto (List.length (mo_entities d)))
     /\ forall root, s = Tree root -> total = N.of_nat (List.length (figures root))).
  { intros s rs d0 e. unfold json_stage. destruct (open_doc s) as [x | [[root k] v]] eqn:O.
    { intros [= <- <- <-]. exists (match s with Tree root => num_figures root | _ => 0 end). split; [reflexivity|]. intros root ->. reflexivity. }
    destruct (parse_doc _ root) as [r es]. rewrite write_none.
    intros H. exists (num_figures root). unfold upto. rewrite map_map. split.
    - destruct r as [u|x|]; injection H as <- <- <-; cbn [mo_entities write_meta app empty_model]; rewrite map_length; reflexivity.
    - intros root' ->. unfold open_doc in O. destruct (meta_attrs (utf8 "data-spec") root'); [discriminate|].
      destruct (meta_attrs (utf8 "data-revision") root'); [discriminate|]. injection O as <- _ _. reflexivity. }
  assert (PJ : forall total l, of_phase PJson (map (fun i => (PJson, i, total)) l) = map (fun i => (PJson, i, total)) l).
  { intros total l. induction l as [|a l IH]; [reflexivity|]. cbn. f_equal. exact IH. }
  assert (PH : forall total l, of_phase PJson (map (fun i => (PHtml, i, total)) l) = []).
  { intros total l. induction l as [|a l IH]; [reflexivity|]. exact IH. }
  unfold parse_spec. destruct inp as [s | total is raised s]; cbn [html_of].
  - destruct (json_stage version args true None s) as [[rs d0] e] eqn:E. cbn [r_file r_reports]. intros [= ->].
    destruct (JS _ _ _ _ E) as (total & -> & T). exists total. rewrite PJ. auto.
  - rewrite html_reports_none. destruct raised; [discriminate|].
    destruct (json_stage version args true None s) as [[rs d0] e] eqn:E. cbn [r_file r_reports]. intros [= ->].
    destruct (JS _ _ _ _ E) as (total' & -> & T). exists total'. unfold of_phase. rewrite filter_app.
    change (filter _ (map (fun i => (PHtml, i, total)) is)) with (of_phase PJson (map (fun i => (PHtml, i, total)) is)). rewrite PH. cbn [app].
    split; [apply PJ | exact T].
Qed.

(** A consumer that stops after [k] reports: the same reports up to there; the document holds
    exactly the entities before the one reported last and has no lint list; it is not written
    at all if the json phase was not reached. *)
Theorem C34_stop version args inp k :
  let full := parse_spec version args true None inp in
  let r := parse_spec version args true (Some (N.of_nat k)) inp in
  ((List.length (r_reports full) < k)%nat /\ r = full)
  \/ ((k <= List.length (r_reports full))%nat
      /\ r_reports r = firstn k (r_reports full) /\ r_end r = Failed PClosed
      /\ match List.length (of_phase PJson (r_reports r)) with
         | O => r_file r = None
         | S j => exists d df, r_file r = Some d /\ r_file full = Some df
                    /\ mo_entities d = firstn j (mo_entities df) /\ meta_value d "lint" = None
         end).
Proof.
  cbn zeta. destruct (Nat.eq_dec k 0) as [->|K0].
  { right. cbn. split; [lia|]. auto. }
  assert (K : (0 < k)%nat) by lia.
  assert (PS : forall i, parse_spec version args true (Some (N.of_nat k)) i = match i with
      | Html s => let '(rs, d, e) := json_stage version args true (Some (N.of_nat k)) s in mkRun rs (Some d) e
      | Docx total is raised s =>
          let '(rs, o) := html_reports total is (Some (N.of_nat k)) in
          match o with
          | None => mkRun rs None (Failed PClosed)
          | Some w' =>
              if raised then mkRun rs None (Failed PConvert)
              else let '(rs', d, e) := json_stage version args true w' s in mkRun (rs ++ rs') (Some d) e
          end end).
  { intros i. unfold parse_spec. destruct k as [|k]; [lia|]. reflexivity. }
  assert (JR : forall s, exists total m, fst (fst (json_stage version args true None s)) = map (fun i => (PJson, i, total)) (upto m)).
  { intros s. unfold json_stage. destruct (open_doc s) as [x | [[root key] v]]; [exists 0, 0%nat; reflexivity|].
    destruct (parse_doc _ root) as [r es]. rewrite write_none. exists (num_figures root), (List.length (ents_of es)). unfold upto. rewrite map_map.
    destruct r; reflexivity. }
  assert (PJ : forall total l, of_phase PJson (map (fun i => (PJson, i, total)) l) = map (fun i => (PJson, i, total)) l).
  { intros total l. induction l as [|a l IH]; [reflexivity|]. cbn. f_equal. exact IH. }
  assert (PH : forall total l, of_phase PJson (map (fun i => (PHtml, i, total)) l) = []).
  { intros total l. induction l as [|a l IH]; [reflexivity|]. exact IH. }
  rewrite PS. unfold parse_spec. destruct inp as [s | total is raised s].
  - pose proof (json_stage_some version args s k K) as JS. destruct (JR s) as (tt' & m & JM).
    destruct (json_stage version args true None s) as [[rf df] ef]. cbn [fst] in JM. cbn [r_reports r_file].
    destruct JS as [(L & ->) | (L & d & -> & D1 & D2)]; [left; auto | right]. cbn [r_reports r_file r_end].
    split; [exact L|]. split; [reflexivity|]. split; [reflexivity|].
    rewrite JM, firstn_map, PJ, map_length, firstn_length. rewrite JM, map_length in L.
    replace (Nat.min k (List.length (upto m))) with (S (k - 1)) by lia. exists d, df. auto.
  - rewrite html_reports_none, html_reports_some by exact K. destruct (Nat.ltb_spec (List.length is) k) as [L|L].
    + destruct raised; cbn [r_reports r_file r_end]; [left; rewrite map_length; auto|].
      pose proof (json_stage_some version args s (k - List.length is)%nat) as JS. destruct (JR s) as (tt' & m & JM).
      destruct (json_stage version args true None s) as [[rf df] ef]. cbn [fst] in JM. specialize (JS ltac:(lia)). cbn [r_reports r_file].
      destruct JS as [(L' & ->) | (L' & d & -> & D1 & D2)]; [left | right]; cbn [r_reports r_file r_end]; rewrite app_length, map_length.
      { split; [lia | reflexivity]. }
      split; [lia|]. split; [rewrite firstn_app, map_length, (firstn_all2 (map _ is)) by (rewrite map_length; lia); reflexivity|].
      split; [reflexivity|]. unfold of_phase. rewrite filter_app.
      change (filter _ (map (fun i => (PHtml, i, total)) is)) with (of_phase PJson (map (fun i => (PHtml, i, total)) is)). rewrite PH. cbn [app].
      rewrite JM, firstn_map. rewrite JM, map_length in L'.
      change (filter _ (map ?f ?l)) with (of_phase PJson (map f l)). rewrite PJ, map_length, firstn_length.
      replace (Nat.min (k - List.length is) (List.length (upto m))) with (S (k - List.length is - 1)) by lia. exists d, df. auto.
    + right. cbn [r_reports r_file r_end].
      assert (RL : exists rest, r_reports (if raised then mkRun (map (fun i => (PHtml, i, total)) is) None (Failed PConvert)
          else let '(rs', d, e) := json_stage version args true None s in mkRun (map (fun i => (PHtml, i, total)) is ++ rs') (Some d) e)
          = map (fun i => (PHtml, i, total)) is ++ rest).
      { destruct raised; [exists []; cbn; rewrite app_nil_r; reflexivity|]. destruct (json_stage version args true None s) as [[rf df] ef]. exists rf. reflexivity. }
      destruct RL as [rest RL]. rewrite RL, app_length, map_length. split; [lia|]. split.
      { rewrite firstn_app, map_length. replace (k - List.length is)%nat with 0%nat by lia. cbn. rewrite app_nil_r, firstn_map. reflexivity. }
      split; [reflexivity|]. rewrite PH. reflexivity.
Qed.

(** ** C35 *)
Definition is_top (e : entity) : bool := match m_parent (en_meta e) with None => true | Some _ => false end.
Lemma top_level_app a b : top_level (a ++ b) = (top_level a + top_level b)%nat.
Proof. unfold top_level. rewrite ents_of_app, filter_app, app_length. reflexivity. Qed.
Lemma nested_not_top l : Forall (fun e => m_parent (en_meta e) <> None) l -> filter is_top l = [].
Proof.
  induction 1 as [|e l H F IH]; [reflexivity|]. cbn [filter]. unfold is_top at 1.
  destruct (m_parent (en_meta e)); [exact IH | congruence].
Qed.

Lemma table_top P t : tame P -> e_tag t = t_table ->
  (forall m tbl, identified t m tbl -> ~ splits P (m_fig m)) ->
  (top_level (snd (parse_doc P (single t))) <= 1)%nat.
Proof.
  intros TM T NS. unfold top_level. change (fun e : entity => match m_parent (en_meta e) with Some _ => false | None => true end) with is_top.
  pose proof (classify_spec t) as CS. pose proof (single_run P t T) as SR.
  destruct (classify t) as [| |title|m tbl] eqn:C; try (rewrite SR; cbn; lia).
  destruct (identified_named _ _ _ CS) as [H1 H2].
  assert (NM : named m) by (split; [exact H1 | congruence]).
  assert (PR : processed P (figures (single t)) m tbl).
  { apply (pr_top _ _ t); [|apply identified_iff; exact C]. rewrite (figures_single _ T). left. reflexivity. }
  assert (D : figure_raises P (m, tbl) \/ ~ figure_raises P (m, tbl)).
  { unfold figure_raises. cbn [fst snd]. destruct (parse_figure (no_skip P) m tbl false) as [[[u|e|] f] es];
      [right; intros (? & ? & ? & ?); discriminate | left; eauto | right; intros (? & ? & ? & ?); discriminate]. }
  destruct D as [FR | NR].
  - assert (RS : raises P t).
    { destruct FR as (e & f & es & FR). exists e, es. rewrite (single_run _ t T), C. unfold outcome, out. cbn [fst snd] in *. rewrite FR. reflexivity. }
    rewrite nested_not_top; [cbn; lia|]. apply Forall_forall. intros e He. apply In_ents_of in He.
    exact (C25_no_own_entity P t m tbl _ TM T CS (NS _ _ CS) RS eq_refl e He).
  - rewrite SR. cbn [snd]. change (ents_of (out (parse_figure P) (m, tbl))) with (figure_entities P (m, tbl)).
    destruct (order_of_rows P (single t) m tbl TM PR NR) as [(hs & _ & _ & _ & ->) | (x & figs & own & rest & HD & TF & _ & EM & -> & RR)]; [cbn; lia|].
    destruct RR as [-> | [SP _]]; [|destruct (NS _ _ CS SP)].
    rewrite filter_app, nested_not_top; [cbn [app filter]; destruct (is_top own); cbn; lia|].
    pose proof (figs_named x tbl _ _ TF (fun _ H => H)) as F. clear - F TM. induction F as [|[m1 t1] l (F1 & F2 & F3) F IHF]; [constructor|].
    cbn [flat_map]. apply Forall_app. split; [|exact IHF]. rewrite entities_out by assumption.
    apply (nested_parents P TM (S (esize t1))); [lia | exact F1 | exact F2].
Qed.

Lemma in_order_top P ts : tame P -> Forall (fun t => e_tag t = t_table) ts ->
  (forall t m tbl, In t ts -> identified t m tbl -> ~ splits P (m_fig m)) ->
  forall n es, in_order P n ts es -> (top_level es <= List.length ts)%nat.
Proof.
  intros TM FT NS n es IO. induction IO as [n | n t title ts es U IO IH | n t ts e es U ET IO IH]; [cbn; lia | |];
    apply Forall_cons_iff in FT as [FT1 FT2]; specialize (IH FT2 (fun t m tbl H => NS t m tbl (or_intror H))).
  - change (top_level (EvLint (lint_no_id n title) :: es)) with (top_level es). cbn. lia.
  - rewrite top_level_app. pose proof (table_top P t TM FT1 (fun m tbl => NS t m tbl (or_introl eq_refl))) as K. rewrite ET in K. cbn [snd List.length] in *. lia.
Qed.

(** The figures emitted that are not nested in another one are at most as many as announced,
    unless a figure is one that its own extractor may split. *)
Theorem C35_total P doc r es : tame P -> parse_doc P doc = (r, es) ->
  (forall t m tbl, In t (figures doc) -> identified t m tbl -> ~ splits P (m_fig m)) ->
  N.of_nat (top_level es) <= num_figures doc.
Proof.
  intros TM E NS. unfold num_figures. pose proof (figures_tables doc) as FT.
  assert (D : r = Ok tt \/ r <> Ok tt) by (destruct r as [[]|e|]; [left; reflexivity | right; discriminate | right; discriminate]).
  destruct D as [-> | NR].
  - apply C23_concatenation in E. pose proof (in_order_top P _ TM FT NS _ _ E). lia.
  - apply (C26_fail_fast P doc r es NR) in E as (A & t & B & ea & et & EF & IO & EU & ->). rewrite EF in *.
    apply Forall_app in FT as [FA FT]. apply Forall_cons_iff in FT as [FT _].
    pose proof (in_order_top P A TM FA (fun t m tbl H => NS t m tbl (in_or_app _ _ _ (or_introl H))) _ _ IO) as K1.
    pose proof (table_top P t TM FT (fun m tbl => NS t m tbl (in_elt t A B))) as K2. rewrite EU in K2. cbn [snd] in K2.
    rewrite top_level_app, app_length. cbn [List.length]. lia.
Qed.

(** ** Examples *)
Local Open Scope string_scope.
Local Open Scope list_scope.
Definition o_meta : kid :=
  (Elem (utf8 "head") [] [] [(Elem (utf8 "meta") [(utf8 "data-spec", utf8 "NVM"); (utf8 "data-revision", utf8 "9.9")] [] [], [])], []).
Definition o_doc (ts : list elem) : elem :=
  Elem (utf8 "html") [] [] [o_meta; (Elem t_body [] [] (map (fun t => (t, [])) ts), [])].
Definition o_args : pargs := mkArgs false [].
Definition o_input : input := Html (Tree (o_doc [doc_good; doc_noid])).

Example opened : first_attr (o_doc [doc_good; doc_noid]) "data-spec" (utf8 "NVM")
  /\ first_attr (o_doc [doc_good; doc_noid]) "data-revision" (utf8 "9.9").
Proof. split; apply first_attr_iff; eexists; vm_compute; reflexivity. Qed.
Example not_opened : no_attr (d_doc [doc_good]) "data-spec".
Proof. apply no_attr_iff. vm_compute. reflexivity. Qed.
Example o_finished : r_end (parse_spec (utf8 "1") o_args true None o_input) = Finished
  /\ r_end (parse_spec (utf8 "1") o_args true None (Html (Tree (o_doc [doc_good; doc_bad])))) = Failed (PDoc EXPath)
  /\ r_end (parse_spec (utf8 "1") o_args true None (Html Unreadable)) = Failed PRead.
Proof. vm_compute. auto. Qed.
(** One entry is ignored, another is kept. *)
Example o_ignored :
  List.length (match r_file (parse_spec (utf8 "1") o_args false None (Html (Tree (o_doc [doc_good; doc_noid; d_fig "Figure 7: X" [d_cells ["0"; "B"]; d_cells ["2"; "A"]]])))) with
    Some d => lint_list d | None => [] end) = 2%nat
  /\ List.length (match r_file (parse_spec (utf8 "1") (mkArgs false [T1008]) false None (Html (Tree (o_doc [doc_good; doc_noid; d_fig "Figure 7: X" [d_cells ["0"; "B"]; d_cells ["2"; "A"]]])))) with
    Some d => lint_list d | None => [] end) = 1%nat.
Proof. vm_compute. auto. Qed.

(** C35: the reported index does exceed the total; so do the figures that are not nested, in
    the one document with a figure that is split. *)
Theorem C35_index_refuted :
  exists inp i total, In (PJson, i, total) (r_reports (parse_spec (utf8 "1") o_args true None inp)) /\ total < i.
Proof. exists (Html (Tree (o_doc [doc_good]))), 2, 1. split; [vm_compute; auto | lia]. Qed.
Definition nvm_parser : parser := mkParser false (fst NvmCmdSet1c) (snd NvmCmdSet1c).
Theorem C35_split_refuted :
  exists doc es, parse_doc nvm_parser doc = (Ok tt, es) /\ num_figures doc < N.of_nat (top_level es).
Proof.
  exists (d_doc [d_fig "Figure 23: A" [d_cells ["7:0"; "Low (LOW): l."]; d_cells ["Figure 24: B"];
                   d_row [d_head "Bits"; d_head "Description"]; d_cells ["7:0"; "Low (LOW): l."]]]).
  eexists. split; [vm_compute; reflexivity | vm_compute; reflexivity].
Qed.
Example no_splits : forall t m tbl, In t (figures (o_doc [doc_good; doc_noid])) -> identified t m tbl -> ~ splits nvm_parser (m_fig m).
Proof.
  intros t m tbl I ID. destruct (classify_iff t) as (_ & _ & _ & CF). apply CF in ID.
  destruct I as [<- | [<- | []]]; vm_compute in ID; [|discriminate]. injection ID as <- _. intros (c & p & f & H & _). vm_compute in H. discriminate.
Qed.

Print Assumptions C32_ignore.
Print Assumptions C33_written.
Print Assumptions C33_not_opened.
Print Assumptions C33_complete.
Print Assumptions C34_same_result.
Print Assumptions C34_reports.
Print Assumptions C34_stop.
Print Assumptions C35_total.
Print Assumptions C35_index_refuted.
Print Assumptions C35_split_refuted.
