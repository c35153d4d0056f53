(** The JSON file of a run that ends well. *)
From Coq Require Import NArith ZArith List Bool String Lia ZifyBool ZifyN.
From Verif Require Import PyTables PyStr PyStrFacts Regex Regexes Xml Json Lint RowIter Helpers Extract Document Output
  RegexFacts MFacts SpecText SpecFields SpecLabel SpecHeader SpecRows SpecTable SpecDoc SpecRun SpecReads SpecEnd SpecOutput SpecOut
  RangeProofs LabelProofs ValidateProofs RowProofs HeaderProofs TableProofs SizeProofs Prop_Label Prop_Range Prop_Header DocProofs DocFlow DocRuns
  Prop_Table Prop_Doc Prop_Output JsonText SpecJson JsonProofs Prop_Json SpecStage2 Prop_Stage2 ReadProofs ReadFigs Prop_Reads EndProofs OutProofs OutFigure OutUnique SpecNames NameProofs CellRead Prop_Out Disk SpecDisk.
Import ListNotations.
Local Open Scope list_scope.
Local Open Scope N_scope.
Local Open Scope string_scope.
Local Open Scope list_scope.

(** The JSON file of a run that ends well. *)
Lemma json_written version args inp root m : html_of inp = Tree root -> converted inp ->
  r_file (parse_spec version args false None inp) = Some m -> r_end (parse_spec version args false None inp) = Finished ->
  json_for version args root (file_text m).
Proof.
  intros H C RF RE.
  assert (JS : exists rs, json_stage version args false None (Tree root) = (rs, m, Finished)).
  { destruct inp as [s|total is raised s]; cbn [html_of converted] in H, C; subst.
    - unfold parse_spec in *. destruct (json_stage _ _ _ _ _) as [[rs m'] e]. cbn [r_file r_end] in *. injection RF as ->. subst e. eauto.
    - unfold parse_spec in *. destruct (json_stage _ _ _ _ _) as [[rs m'] e]. cbn [r_file r_end] in *. injection RF as ->. subst e. eauto. }
  destruct JS as [rs JS].
  assert (KV : exists k v, first_attr root "data-spec" k /\ first_attr root "data-revision" v).
  { unfold json_stage, open_doc in JS. destruct (meta_attrs (utf8 "data-spec") root) as [|k ks] eqn:K; [discriminate|]. destruct (meta_attrs (utf8 "data-revision") root) as [|v vs] eqn:V; [discriminate|].
    exists k, v. split; apply first_attr_iff; eauto. }
  destruct KV as (k & v & K & V).
  pose proof (tame_parsers (a_skip args) (lower k) (lower v)) as TM. pose proof (struct_parsers (a_skip args) (lower k) (lower v)) as SO.
  set (P := get_parser (a_skip args) (lower k) (lower v)) in *.
  destruct (doc_told P TM SO (figures root) 0 false) as (ok & r & f & es & D & E & R).
  assert (PD : parse_doc P root = (r, es)) by (unfold parse_doc; rewrite E; reflexivity).
  rewrite (json_stage_none version args false _ root k v r es eq_refl K V PD) in JS. destruct r as [[]|x|]; [|discriminate | discriminate].
  assert (ok = true) as -> by (destruct ok; [reflexivity | destruct R as (? & ?); discriminate]). injection JS as _ <-.
  assert (CV : match Html (Tree root) with Html _ => True | _ => False end) by exact Logic.I.
  destruct (C80_file version args false (Html (Tree root)) root k v true es eq_refl Logic.I K V D) as (d & j & mt & js & RD & JT & OB & SA & _ & ls & lj & WO & SL & LI).
  exists k, v, es, j, (JObj mt), js, ls, lj. split; [exact K|]. split; [exact V|]. split; [exact D|].
  unfold parse_spec in RD. rewrite (json_stage_none version args false _ root k v (Ok tt) es eq_refl K V PD) in RD. cbn [r_file] in RD. injection RD as <-.
  split; [exact JT|]. split; [exact OB|]. split; [|auto].
  assert (j = model_json (mkModel (doc_meta version (lower k) (lower v) ++ [(utf8 "lint", JList (reported_lint (a_ignore args) es))]) (map entity_json (ents_of es)))) as ->.
  { exact (proj1 (proj2 (C71_text _)) _ JT). }
  destruct OB as (l & [= <-] & ND & OB). assert (X := proj2 (OB (utf8 "meta") (JObj mt)) (ex_intro _ "meta" (conj eq_refl (or_introl eq_refl)))).
  destruct X as [[= X]|[X|[]]]; [|discriminate X]. subst mt. cbn [mo_meta] in LI.
  assert (XL := proj1 (LI (JList (reported_lint (a_ignore args) es))) (or_intror (or_intror (or_intror (or_intror (or_introl eq_refl)))))). rewrite <- XL.
  apply object_of; [keys|]. intros q. cbn [map fst snd In]. tauto.
Qed.

