(** C93: only the texts and the structure of the tables count; classes, identifiers, styles and
    the formatting inside paragraphs do not. *)
From Coq Require Import NArith ZArith List Bool String.
From Verif Require Import PyStr PyStrFacts Xml Json Lint RowIter Helpers Extract Document Output JsonText SpecOutput SpecElem SpecAlike AlikeProofs Prop_Output Prop_Elem.
Import ListNotations.
Local Open Scope list_scope.

Lemma open2 r r' : N r r' ->
  match open_doc (Tree r), open_doc (Tree r') with
  | inl e, inl e' => e = e'
  | inr (a, k, v), inr (a', k', v') => a = r /\ a' = r' /\ k = k' /\ v = v'
  | _, _ => False
  end.
Proof.
  intros H. unfold open_doc. rewrite <- (metas2 (utf8 "data-spec") r r' ltac:(struct) H), <- (metas2 (utf8 "data-revision") r r' ltac:(struct) H).
  destruct (meta_attrs (utf8 "data-spec") r); [reflexivity|]. destruct (meta_attrs (utf8 "data-revision") r); [reflexivity|]. repeat split.
Qed.
Lemma total2 r r' : N r r' -> num_figures r = num_figures r'.
Proof.
  intros H. unfold num_figures. f_equal. induction (figures2 r r' H) as [|? ? ? ? _ _ IH]; [reflexivity|]. cbn [List.length]. f_equal. exact IH.
Qed.
Lemma stage2 version args progress w s s' : sources_alike s s' -> json_stage version args progress w s = json_stage version args progress w s'.
Proof.
  intros [|r r' T H]; [reflexivity|]. assert (NR : N r r') by (apply alike_node; [rewrite T; struct | exact H]).
  unfold json_stage. pose proof (open2 r r' NR) as O. destruct (open_doc (Tree r)) as [e|[[a k] v]], (open_doc (Tree r')) as [e'|[[a' k'] v']]; try contradiction; [rewrite O; reflexivity|].
  destruct O as (-> & -> & <- & <-). rewrite <- (doc2 _ r r' NR), <- (total2 r r' NR). reflexivity.
Qed.

(** Two inputs that are alike give the same run: the same progress reports, the same JSON file,
    the same end. *)
Theorem C93_same : forall version args progress w inp inp', inputs_alike inp inp' ->
  parse_spec version args progress w inp = parse_spec version args progress w inp'.
Proof.
  intros version args progress w inp inp' [s s' H|n is r s s' H]; unfold parse_spec.
  - rewrite (stage2 version args progress w s s' H). reflexivity.
  - destruct w as [[|k]|]; [reflexivity| |]; destruct (if progress then _ else _) as [rs [w'|]]; try reflexivity;
      destruct r; try reflexivity; rewrite (stage2 version args progress w' s s' H); reflexivity.
Qed.

(** So do the tables themselves, whatever the extractors of the document. *)
Theorem C93_document : forall P r r', e_tag r = utf8 "html" -> alike r r' -> parse_doc P r = parse_doc P r'.
Proof. intros P r r' T H. apply doc2, alike_node; [rewrite T; struct | exact H]. Qed.

Lemma body_tables_eq root ts : body_tables root ts -> figures root = ts.
Proof.
  intros (bs & tss & P & F & ->). apply C94_children in P. unfold figures. change t_body with (utf8 "body"). rewrite P. clear P.
  induction F as [|b ts bs tss H F IH]; [reflexivity|]. apply C94_children in H. cbn [flat_map List.concat]. change t_table with (utf8 "table"). rewrite H. f_equal. exact IH.
Qed.
Lemma attrs_same a root root' : (forall v, first_attr root a v <-> first_attr root' a v) -> hd_error (meta_attrs (utf8 a) root) = hd_error (meta_attrs (utf8 a) root').
Proof.
  intros H. destruct (meta_attrs (utf8 a) root) as [|v l] eqn:E, (meta_attrs (utf8 a) root') as [|v' l'] eqn:E'; [reflexivity| | |].
  - exfalso. destruct (proj1 (first_attr_iff a root v') (proj2 (H v') (proj2 (first_attr_iff a root' v') (ex_intro _ l' E')))) as [r R]. congruence.
  - exfalso. destruct (proj1 (first_attr_iff a root' v) (proj1 (H v) (proj2 (first_attr_iff a root v) (ex_intro _ l E)))) as [r R]. congruence.
  - cbn [hd_error]. destruct (proj1 (first_attr_iff a root' v) (proj1 (H v) (proj2 (first_attr_iff a root v) (ex_intro _ l E)))) as [r R]. congruence.
Qed.

(** Nothing outside the tables that stand directly in the body counts, but the name and the
    revision: two documents whose tables are alike, one by one, give the same run. *)
Theorem C93_tables : forall version args progress w root root' ts ts',
  (forall v, first_attr root "data-spec" v <-> first_attr root' "data-spec" v) ->
  (forall v, first_attr root "data-revision" v <-> first_attr root' "data-revision" v) ->
  body_tables root ts -> body_tables root' ts' -> Forall2 alike ts ts' ->
  parse_spec version args progress w (Html (Tree root)) = parse_spec version args progress w (Html (Tree root')).
Proof.
  intros version args progress w root root' ts ts' HS HR T T' F. apply body_tables_eq in T, T'.
  assert (FN : Forall2 N (figures root) (figures root')).
  { rewrite T, T'. clear T'. assert (TG : Forall (fun t => e_tag t = t_table) ts).
    { rewrite <- T. apply Forall_forall. intros t I. unfold figures in I. apply in_flat_map in I as (b & _ & I). unfold children, kids_of in I.
      apply in_map_iff in I as ([c x] & <- & I). apply filter_In in I as [_ I]. apply seqb_eq, I. }
    clear T. induction F as [|t t' ts ts' H F IH]; [constructor|]. inversion TG as [|? ? TG1 TG2]; subst. constructor; [apply alike_node; [rewrite TG1; struct | exact H] | apply IH, TG2]. }
  assert (D : forall P, parse_doc P root = parse_doc P root').
  { intros P. unfold parse_doc. rewrite (r_run _ _ false (tables2 _ P P _ _ (agree_refl P) FN ltac:(repeat split) 0%N)). reflexivity. }
  assert (L : num_figures root = num_figures root').
  { unfold num_figures. f_equal. clear - FN. induction FN as [|? ? ? ? _ _ IH]; [reflexivity|]. cbn [List.length]. f_equal. exact IH. }
  assert (J : json_stage version args progress w (Tree root) = json_stage version args progress w (Tree root')).
  { unfold json_stage, open_doc. apply attrs_same in HS, HR. destruct (meta_attrs (utf8 "data-spec") root), (meta_attrs (utf8 "data-spec") root'); try discriminate HS; [reflexivity|]. injection HS as <-.
    destruct (meta_attrs (utf8 "data-revision") root), (meta_attrs (utf8 "data-revision") root'); try discriminate HR; [reflexivity|]. injection HR as <-. rewrite <- D, <- L. reflexivity. }
  unfold parse_spec. rewrite J. reflexivity.
Qed.

Lemma bare_values a : same_values a (filter (fun p => if in_dec (list_eq_dec N.eq_dec) (fst p) looked_at then true else false) a).
Proof.
  intros n o I. rewrite !valued_iff. assert (E : value_of n (filter (fun p => if in_dec (list_eq_dec N.eq_dec) (fst p) looked_at then true else false) a) = value_of n a); [|rewrite E; reflexivity].
  unfold value_of. induction a as [|[m v] a IH]; [reflexivity|]. cbn [filter fst]. destruct (in_dec (list_eq_dec N.eq_dec) m looked_at) as [J|J]; cbn [find fst].
  - destruct (seqb m n); [reflexivity | exact IH].
  - destruct (seqb m n) eqn:E; [|exact IH]. apply seqb_eq in E. subst m. contradiction.
Qed.
Lemma alike_bare : forall e, alike e (bare e).
Proof.
  fix IH 1. intros [t a x ks]. cbn [bare]. apply al_node; [apply bare_values|].
  induction ks as [|k ks IK]; [constructor|]. cbn [map]. constructor; [split; [exact (IH (fst k)) | reflexivity] | exact IK].
Qed.
Lemma same_refl a : same_values a a.
Proof. intros n o _. reflexivity. Qed.
Lemma alike_refl : forall e, alike e e.
Proof.
  fix IH 1. intros [t a x ks]. apply al_node; [apply same_refl|]. induction ks as [|k ks IK]; [constructor|]. constructor; [split; [exact (IH (fst k)) | reflexivity] | exact IK].
Qed.
Lemma alike_unformatted : forall e, alike e (unformatted e).
Proof.
  fix IH 1. intros [t a x ks]. cbn [unformatted]. destruct (list_eq_dec N.eq_dec t (utf8 "p")) as [E|E].
  - match goal with |- context [find ?q a] => destruct (find q a) as [p|] eqn:F end; [apply alike_refl|]. apply al_text; [| apply same_refl | | cbn [whole_text flat_map]; rewrite app_nil_r; reflexivity].
    + rewrite E. vm_compute. intros H. decompose [or] H; try discriminate; contradiction.
    + apply valued_iff. unfold value_of. clear - F. induction a as [|[m v] a IH]; [reflexivity|]. cbn [find fst] in *. destruct (list_eq_dec N.eq_dec m (utf8 "colspan")) as [E|E]; [discriminate|].
      destruct (seqb m a_colspan) eqn:G; [|apply IH, F]. apply seqb_eq in G. contradiction.
  - apply al_node; [apply same_refl|]. clear E. induction ks as [|k ks IK]; [constructor|]. cbn [map]. constructor; [split; [exact (IH (fst k)) | reflexivity] | exact IK].
Qed.

(** All attributes but four can be removed from the document. *)
Theorem C93_attributes : forall version args progress w r, e_tag r = utf8 "html" ->
  parse_spec version args progress w (Html (Tree r)) = parse_spec version args progress w (Html (Tree (bare r))).
Proof. intros version args progress w r T. apply C93_same. constructor. constructor; [exact T | apply alike_bare]. Qed.
(** The formatting of all paragraphs can be removed. *)
Theorem C93_formatting : forall version args progress w r, e_tag r = utf8 "html" ->
  parse_spec version args progress w (Html (Tree r)) = parse_spec version args progress w (Html (Tree (unformatted r))).
Proof. intros version args progress w r T. apply C93_same. constructor. constructor; [exact T | apply alike_unformatted]. Qed.

(** ** A document with formatting *)

Definition leaf (t : string) (a : list (str * str)) (s : string) : elem := Elem (utf8 t) a (utf8 s) [].
Definition styled (c : elem) : elem :=
  Elem (utf8 "html") [(utf8 "lang", utf8 "en")] []
    [(Elem (utf8 "head") [] [] [(Elem (utf8 "meta") [(utf8 "data-spec", utf8 "Spec"); (utf8 "data-revision", utf8 "1.0")] [] [], [])], []);
     (Elem (utf8 "body") [] []
       [(Elem (utf8 "table") [(utf8 "class", utf8 "grid")] []
          [(Elem (utf8 "tr") [] [] [(Elem (utf8 "td") [(utf8 "class", utf8 "title")] [] [(leaf "p" [] "Figure 7: Units", [])], [])], []);
           (Elem (utf8 "tr") [] [] [(Elem (utf8 "td") [] [] [(leaf "p" [] "Value", [])], []); (Elem (utf8 "td") [] [] [(leaf "p" [] "Definition", [])], [])], []);
           (Elem (utf8 "tr") [] [] [(Elem (utf8 "td") [(utf8 "id", utf8 "c1")] [] [(leaf "p" [] "1h", [])], []); (c, [])], [])], [])], [])].
(** A cell whose paragraph has a bold word; the same text in one paragraph; in two. *)
Definition bold_cell : elem :=
  Elem (utf8 "td") [(utf8 "style", utf8 "x")] [] [(Elem (utf8 "p") [(utf8 "class", utf8 "y")] [] [(leaf "b" [] "Micro", utf8 "meter: a "); (leaf "i" [] "unit", [])], [])].
Definition plain_cell : elem := Elem (utf8 "td") [] [] [(leaf "p" [] "Micrometer: a unit", [])].
Definition split_cell : elem := Elem (utf8 "td") [] [] [(leaf "p" [] "Micro", []); (leaf "p" [] "meter: a unit", [])].
Definition run_of (c : elem) : run := parse_spec (utf8 "1.0") (mkArgs false []) false None (Html (Tree (styled c))).

(** The formatted document and the one without attributes and formatting have the same JSON file,
    with the label. *)
Example C93_sample :
  alike (styled bold_cell) (unformatted (styled bold_cell))
  /\ bare (unformatted (styled bold_cell)) = bare (styled plain_cell)
  /\ unformatted (styled bold_cell) <> styled bold_cell /\ bare (styled bold_cell) <> styled bold_cell
  /\ run_of bold_cell = run_of plain_cell
  /\ r_end (run_of bold_cell) = Finished
  /\ exists d, r_file (run_of bold_cell) = Some d
     /\ contains (utf8 """label"": ""MICROMETER""") (JsonText.file_text d) = true.
Proof.
  split; [apply alike_unformatted|]. split; [vm_compute; reflexivity|]. split; [vm_compute; discriminate|]. split; [vm_compute; discriminate|].
  split; [vm_compute; reflexivity|]. split; [vm_compute; reflexivity|]. eexists. split; [vm_compute; reflexivity | vm_compute; reflexivity].
Qed.
(** The same document with an introduction, a remark between the cells' tables and a script. *)
Definition wordy (c : elem) : elem :=
  match styled c with
  | Elem t a x [hd; (Elem bt ba bx bks, bs)] =>
      Elem t a (utf8 "x") [hd; (leaf "script" [] "f();", []); (Elem bt ba (utf8 "In this document") ((leaf "p" [] "Introduction", utf8 ".") :: bks ++ [(leaf "h1" [] "Figure 9: End", [])]), bs)]
  | e => e
  end.
Example C93_sample_tables :
  exists ts, body_tables (styled plain_cell) ts /\ body_tables (wordy plain_cell) ts /\ List.length ts = 1%nat
  /\ (forall a v, first_attr (styled plain_cell) a v <-> first_attr (wordy plain_cell) a v)
  /\ parse_spec (utf8 "1.0") (mkArgs false []) false None (Html (Tree (wordy plain_cell))) = run_of plain_cell.
Proof.
  exists (figures (styled plain_cell)). split; [|split; [|split; [reflexivity|split]]].
  - exists (children (utf8 "body") (styled plain_cell)), (map (children (utf8 "table")) (children (utf8 "body") (styled plain_cell))).
    split; [apply C94_children; reflexivity|]. split; [|reflexivity]. constructor; [apply C94_children; reflexivity | constructor].
  - exists (children (utf8 "body") (wordy plain_cell)), (map (children (utf8 "table")) (children (utf8 "body") (wordy plain_cell))).
    split; [apply C94_children; reflexivity|]. split; [|reflexivity]. constructor; [apply C94_children; reflexivity | constructor].
  - intros a v. reflexivity.
  - vm_compute. reflexivity.
Qed.
(** The division of a cell into paragraphs does count, though the text of the cell is the same. *)
Theorem C93_paragraphs_refuted :
  whole_text split_cell = whole_text plain_cell /\ r_file (run_of split_cell) <> r_file (run_of plain_cell).
Proof. split; [vm_compute; reflexivity | vm_compute; discriminate]. Qed.

Print Assumptions C93_same.
Print Assumptions C93_document.
Print Assumptions C93_tables.
Print Assumptions C93_sample_tables.
Print Assumptions C93_attributes.
Print Assumptions C93_formatting.
Print Assumptions C93_sample.
Print Assumptions C93_paragraphs_refuted.
