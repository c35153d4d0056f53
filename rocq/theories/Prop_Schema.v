(** C36: which finished documents satisfy the published schema. *)
From Coq Require Import NArith ZArith List Bool String Lia ZifyBool ZifyN.
From Verif Require Import PyTables PyStr PyStrFacts Xml Json Lint RowIter Helpers Extract Document Output Schema
  MFacts SpecText SpecFields SpecHeader SpecRows SpecTable SpecDoc SpecRun SpecOutput
  DocProofs DocFlow DocRuns Prop_Table Prop_Doc Prop_Output.
Import ListNotations.
Local Open Scope string_scope.
Local Open Scope list_scope.

(** The entities the schema has no room for: a table of values without values, and fields with
    a low and high that are formulas. *)
Definition outside_schema (e : entity) : Prop :=
  en_body e = BValues []
  \/ exists k fs f lo hi, en_body e = BStruct k fs /\ In f fs /\ sf_range f = RDyn lo hi.

(** ** Parts of the schema *)
Definition part (k : string) (s : schema) : schema :=
  match s with Schema _ _ _ _ _ ps _ _ _ =>
    match find (fun p => seqb (fst p) (utf8 k)) ps with Some p => snd p | None => s end end.
Definition item (s : schema) : schema :=
  match s with Schema _ _ _ _ _ _ _ (Some i) _ => i | _ => s end.
Definition alt (n : nat) (s : schema) : schema :=
  match s with Schema _ _ _ _ _ _ _ _ (Some l) => nth n l s | _ => s end.

Definition S_str := Schema (Some TString) None None None 0 [] [] None None.
Definition S_meta := part "meta" stage2_schema.
Definition S_entities := part "entities" stage2_schema.
Definition S_entity := item S_entities.
Definition S_val := alt 0 S_entity.
Definition S_struct := alt 1 S_entity.
Definition S_vals := part "fields" S_val.
Definition S_fields := part "fields" S_struct.
Definition S_vf := item S_vals.
Definition S_sf := item S_fields.
Definition S_range := part "range" S_sf.
Definition S_vtype := part "type" S_val.
Definition S_stype := part "type" S_struct.
Definition S_lint := part "lint" S_meta.
Definition S_entry := item S_lint.

Lemma top_eq : stage2_schema = Schema (Some TObject) None None None 0
  [(utf8 "meta", S_meta); (utf8 "entities", S_entities)] [utf8 "meta"; utf8 "entities"] None None.
Proof. reflexivity. Qed.
Lemma entities_eq : S_entities = Schema (Some TArray) None None None 0 [] [] (Some S_entity) None.
Proof. reflexivity. Qed.
Lemma entity_eq : S_entity = Schema None None None None 0 [] [] None (Some [S_val; S_struct]).
Proof. reflexivity. Qed.
Lemma val_eq : S_val = Schema (Some TObject) None None None 0
  [(utf8 "title", S_str); (utf8 "fig_id", S_str); (utf8 "type", S_vtype); (utf8 "fields", S_vals)]
  [utf8 "fig_id"; utf8 "type"] None None.
Proof. reflexivity. Qed.
Lemma struct_eq : S_struct = Schema (Some TObject) None None None 0
  [(utf8 "title", S_str); (utf8 "fig_id", S_str); (utf8 "type", S_stype); (utf8 "fields", S_fields)]
  [utf8 "fig_id"; utf8 "type"] None None.
Proof. reflexivity. Qed.
Lemma vals_eq : S_vals = Schema (Some TArray) None None None 1 [] [] (Some S_vf) None.
Proof. reflexivity. Qed.
Lemma fields_eq : S_fields = Schema (Some TArray) None None None 0 [] [] (Some S_sf) None.
Proof. reflexivity. Qed.
Lemma sf_eq : S_sf = Schema (Some TObject) None None None 0
  [(utf8 "range", S_range); (utf8 "label", S_str); (utf8 "brief", S_str)] [utf8 "range"; utf8 "label"] None None.
Proof. reflexivity. Qed.
Lemma meta_eq : S_meta = Schema (Some TObject) None None None 0
  [(utf8 "specification", S_str); (utf8 "revision", S_str);
   (utf8 "format version", Schema (Some TNumber) None (Some 1%Z) None 0 [] [] None None);
   (utf8 "spex version", S_str); (utf8 "lint", S_lint)]
  [utf8 "specification"; utf8 "revision"; utf8 "format version"] None None.
Proof. reflexivity. Qed.
Lemma lint_eq : S_lint = Schema (Some TArray) None None None 0 [] [] (Some S_entry) None.
Proof. reflexivity. Qed.

Lemma jget_cons k k' v l : jget k ((k', v) :: l) = if seqb k' k then Some v else jget k l.
Proof. unfold jget. cbn [find fst]. destruct (seqb k' k); reflexivity. Qed.
Lemma jget_nil k : jget k [] = None. Proof. reflexivity. Qed.
Ltac jg := repeat (rewrite jget_cons; match goal with |- context [seqb (utf8 ?a) (utf8 ?b)] =>
  let r := eval vm_compute in (seqb (utf8 a) (utf8 b)) in change (seqb (utf8 a) (utf8 b)) with r; cbn iota end); rewrite ?jget_nil.
Ltac jv := cbn [valid has_type forallb existsb fst snd andb orb]; jg; cbn [valid has_type forallb existsb fst snd andb orb].

Lemma valid_string s : valid S_str (JStr s) = true. Proof. reflexivity. Qed.

(** ** Fields *)
Definition range_ok (r : range) : bool :=
  match r with
  | RInt lo hi => Z.leb 0 lo || (Z.eqb lo (-1) && Z.eqb hi (-1))
  | RDyn _ _ => false
  | RText _ => true
  end.
Lemma valid_range r : valid S_range (range_json r) = range_ok r.
Proof.
  destruct r as [lo hi | lo hi | s]; [|vm_compute; reflexivity | vm_compute; reflexivity].
  cbv -[Z.leb Z.eqb]. destruct (Z.leb_spec 0 lo), (Z.leb_spec (-1) lo), (Z.leb_spec lo (-1)), (Z.leb_spec (-1) hi), (Z.leb_spec hi (-1)), (Z.eqb_spec lo (-1)), (Z.eqb_spec hi (-1)); lia || reflexivity.
Qed.
Lemma valid_sfield f : valid S_sf (sfield_json f) = range_ok (sf_range f).
Proof.
  rewrite <- valid_range, sf_eq. unfold sfield_json. destruct f as [l r [b|]]; cbn [sf_label sf_range sf_brief brief_json app]; jv;
    rewrite ?valid_string; cbn [andb]; rewrite ?andb_true_r, ?orb_false_r; reflexivity.
Qed.
Lemma valid_vfield f : valid S_vf (vfield_json f) = true.
Proof. destruct f as [v l [b|]]; vm_compute; reflexivity. Qed.
Lemma valid_lint l : valid S_entry (lint_json l) = true.
Proof. destruct l as [c fig msg [r|] ctx]; destruct c; reflexivity. Qed.

Lemma valid_entity e : valid S_entity (entity_json e) =
  match en_body e with
  | BValues fs => match fs with [] => false | _ => true end
  | BStruct k fs => forallb (fun f => range_ok (sf_range f)) fs
  end.
Proof.
  assert (V : forall fs, valid S_vals (JList (map vfield_json fs)) = match fs with [] => false | _ => true end).
  { intros fs. rewrite vals_eq. cbn [valid has_type andb]. rewrite map_length.
    assert (F : forallb (valid S_vf) (map vfield_json fs) = true) by (induction fs as [|f fs IH]; [reflexivity|]; cbn [map forallb]; rewrite valid_vfield; exact IH).
    rewrite F. destruct fs; reflexivity. }
  assert (S : forall fs, valid S_fields (JList (map sfield_json fs)) = forallb (fun f => range_ok (sf_range f)) fs).
  { intros fs. rewrite fields_eq. cbn [valid has_type andb Nat.leb]. rewrite !andb_true_r.
    induction fs as [|f fs IH]; [reflexivity|]. cbn [map forallb]. rewrite valid_sfield, IH. reflexivity. }
  rewrite entity_eq. destruct e as [[t fig p] [k fs | fs]]; unfold entity_json; cbn [en_body en_meta m_title m_fig m_parent meta_json].
  - change (valid (Schema None None None None 0 [] [] None (Some [S_val; S_struct]))
        (JObj (meta_json (mkMeta t fig p) ++ [(utf8 "type", JStr (kind_name k)); (utf8 "fields", JList (map sfield_json fs))])))
      with (existsb (fun s => valid s (JObj (meta_json (mkMeta t fig p) ++ [(utf8 "type", JStr (kind_name k)); (utf8 "fields", JList (map sfield_json fs))]))) [S_val; S_struct]).
    unfold meta_json. cbn [m_title m_fig m_parent existsb]. rewrite val_eq, struct_eq, <- S.
    assert (T1 : valid S_vtype (JStr (kind_name k)) = false) by (destruct k; vm_compute; reflexivity).
    assert (T2 : valid S_stype (JStr (kind_name k)) = true) by (destruct k; vm_compute; reflexivity).
    destruct t as [t|], p as [p|]; cbn [app]; jv; rewrite ?valid_string, T1, T2; cbn [andb orb]; rewrite ?andb_true_r, ?orb_false_r; reflexivity.
  - change (valid (Schema None None None None 0 [] [] None (Some [S_val; S_struct]))
        (JObj (meta_json (mkMeta t fig p) ++ [(utf8 "fields", JList (map vfield_json fs)); (utf8 "type", JStr (utf8 "values"))])))
      with (existsb (fun s => valid s (JObj (meta_json (mkMeta t fig p) ++ [(utf8 "fields", JList (map vfield_json fs)); (utf8 "type", JStr (utf8 "values"))]))) [S_val; S_struct]).
    unfold meta_json. cbn [m_title m_fig m_parent existsb]. rewrite val_eq, struct_eq, <- V.
    assert (T1 : valid S_stype (JStr (utf8 "values")) = false) by (vm_compute; reflexivity).
    assert (T2 : valid S_vtype (JStr (utf8 "values")) = true) by (vm_compute; reflexivity).
    destruct t as [t|], p as [p|]; cbn [app]; jv; rewrite ?valid_string, T1, T2; cbn [andb orb]; rewrite ?andb_true_r, ?orb_false_r; reflexivity.
Qed.

(** ** Ranges of emitted fields *)
Definition emitted_range (r : range) : Prop :=
  match r with RInt lo hi => (0 <= lo)%Z \/ (lo = -1 /\ hi = -1)%Z | _ => True end.
Lemma rows_ranges x dyn rows fs : rows_give x dyn rows fs -> Forall (fun f => emitted_range (sf_range f)) fs.
Proof.
  assert (RN : forall t r, reads_numbers t r -> emitted_range r) by (intros t r [? ? ? ? ? | ? ? ? | ?]; cbn; [left; lia | left; lia | exact Logic.I]).
  assert (RF : forall t r, reads_formula t r -> emitted_range r) by (intros t r [? ? ? | ?]; exact Logic.I).
  induction 1 as [dyn | dyn y rest fs _ _ IH | dyn y rest f fs _ G _ IH | dyn y rest fs _ _ _ IH | dyn y rest _ _]; try assumption; try constructor; [|exact IH].
  inversion G; subst; cbn [sf_range].
  - destruct dyn; [eapply RF | eapply RN]; eassumption.
  - eapply RN; eassumption.
  - right. split; reflexivity.
Qed.
Lemma entity_ranges P doc r es e k fs : tame P -> parse_doc P doc = (r, es) -> In (EvEnt e) es -> en_body e = BStruct k fs ->
  Forall (fun f => emitted_range (sf_range f)) fs.
Proof.
  intros TM E I B. destruct (doc_origin P doc r es (tame_sane _ TM) E) as [A _]. specialize (A _ I).
  destruct A as [m tbl x k' fs' _ _ _ RG _ _ _ | m tbl x fs' _ _ _ _ _ _]; cbn in B; [|discriminate]. injection B as <- <-.
  apply rows_ranges in RG. destruct k'; cbn [emitted_order]; [apply Forall_rev, RG | exact RG].
Qed.

Lemma conforming e : (forall k fs, en_body e = BStruct k fs -> Forall (fun f => emitted_range (sf_range f)) fs) ->
  (valid S_entity (entity_json e) = true <-> ~ outside_schema e).
Proof.
  intros ER. rewrite valid_entity. unfold outside_schema. destruct (en_body e) as [k fs | fs].
  - specialize (ER k fs eq_refl). rewrite forallb_forall. rewrite Forall_forall in ER. split.
    + intros H [? | (k' & fs' & f & lo & hi & [= <- <-] & I & R)]; [discriminate|]. specialize (H f I). rewrite R in H. discriminate.
    + intros H f I. specialize (ER f I). destruct (sf_range f) as [lo hi | lo hi | s] eqn:R; [| |reflexivity].
      * cbn in ER |- *. lia.
      * exfalso. apply H. right. eauto 10.
  - destruct fs as [|f fs]; split.
    + discriminate.
    + intros H. exfalso. apply H. left. reflexivity.
    + intros _ [? | (k' & fs' & f' & lo & hi & [=] & _)]. discriminate.
    + reflexivity.
Qed.

(** A finished document satisfies the schema exactly if none of its entities is one of those. *)
Theorem C36_schema version args b inp root k v es :
  html_of inp = Tree root -> converted inp ->
  first_attr root "data-spec" k -> first_attr root "data-revision" v ->
  parse_doc (get_parser (a_skip args) (lower k) (lower v)) root = (Ok tt, es) ->
  exists d, r_file (parse_spec version args b None inp) = Some d
    /\ (valid stage2_schema (model_json d) = true
        <-> forall e, In (EvEnt e) es -> ~ outside_schema e).
Proof.
  intros HS CV K V E. destruct (C33_written version args b inp root k v _ es HS CV K V E) as (d & F & EN & [(_ & RE & l & MM & _) | (e & ? & _)]); [|discriminate].
  exists d. split; [exact F|].
  assert (LL : forall ig, valid S_lint (JList (reported_lint ig es)) = true).
  { intros ig. rewrite lint_eq. cbn [valid has_type andb Nat.leb]. rewrite !andb_true_r. unfold reported_lint. generalize (filter (fun l : lint => negb (smem (code_name (l_code l)) (map code_name ig))) (lints_of es)).
    intros ls. induction ls as [|x ls IH]; [reflexivity|]. cbn [map forallb]. rewrite valid_lint. exact IH. }
  assert (L : exists ig, l = reported_lint ig es).
  { exists (a_ignore args). clear - F MM HS CV K V E. pose proof (json_stage_none version args b _ root k v (Ok tt) es HS K V E) as JS.
    unfold parse_spec in F. destruct inp as [s | total is raised s]; cbn [html_of converted] in *.
    - rewrite JS in F. injection F as <-. cbn [mo_meta] in MM. unfold doc_meta in MM. cbn [app] in MM. injection MM as MM. congruence.
    - rewrite html_reports_none in F. subst raised. destruct b; rewrite JS in F; injection F as <-; cbn [mo_meta] in MM; unfold doc_meta in MM; cbn [app] in MM; injection MM as MM; congruence. }
  destruct L as [ig ->].
  unfold model_json. rewrite top_eq. jv. rewrite MM, EN. unfold doc_meta. cbn [app]. rewrite meta_eq, entities_eq. jv. rewrite LL, ?valid_string. cbn [andb Nat.leb Z.leb Z.compare Pos.compare Pos.compare_cont].
  rewrite ?andb_true_r. rewrite forallb_forall.
  assert (CF : forall e, In (EvEnt e) es -> (valid S_entity (entity_json e) = true <-> ~ outside_schema e)).
  { intros e I. apply conforming. intros k' fs B. eapply entity_ranges; [apply tame_parsers | exact E | exact I | exact B]. }
  split.
  - intros H e I. apply CF; [exact I|]. apply H, in_map, In_ents_of, I.
  - intros H j I. apply in_map_iff in I as (e & <- & I). apply In_ents_of in I. apply CF; [exact I|]. apply H, I.
Qed.

(** ** Examples *)
Definition schema_ok (ts : list elem) : option bool :=
  match r_file (parse_spec (utf8 "1") o_args false None (Html (Tree (o_doc ts)))) with
  | Some d => Some (valid stage2_schema (model_json d))
  | None => None
  end.
Example schema_good : schema_ok [doc_good; doc_noid] = Some true.
Proof. vm_compute. reflexivity. Qed.
Definition d_no_values : elem := d_table [d_cells ["Figure 9: V"]; d_row [d_head "Value"; d_head "Description"]].
Definition d_list : elem := d_fig "Figure 8: L"
  [d_cells ["7:0"; "Low (LOW): l."]; d_row [d_wide "List of things"]; d_cells ["N*8+7:N*8"; "Item (ITM): x."]].
(** C36: both exceptions occur. *)
Theorem C36_refuted : schema_ok [d_no_values] = Some false /\ schema_ok [d_list] = Some false.
Proof. vm_compute. auto. Qed.
(** A document that could not be opened does not satisfy the schema either. *)
Example schema_empty : valid stage2_schema (model_json empty_model) = false.
Proof. vm_compute. reflexivity. Qed.

Print Assumptions C36_schema.
Print Assumptions C36_refuted.
