(** C85: runs that meet the conditions. *)
From Coq Require Import NArith ZArith List Bool String Lia.
From Verif Require Import PyStr PyStrFacts Xml Json JsonText Lint Extract Document Output Schema Cli Docx Render Css Disk.
From Verif Require Import SpecText SpecFmt SpecQuery SpecGrid SpecDocx SpecXml SpecCli SpecStage1 SpecDoc SpecOut SpecDisk XmlProofs QueryProofs Prop_Doc Prop_Reads Prop_Out Prop_Stage1 Prop_End DiskProofs Prop_Disk Prop_DiskEx Prop_Works.
Import ListNotations.
Local Open Scope string_scope.
Local Open Scope list_scope.
Local Open Scope N_scope.

Lemma wk_one t : In t (below (dx_body en_doc)) -> w_tag t = utf8 "w:tbl" -> t = en_tbl.
Proof.
  intros I T. assert (J : In t (filter (is_tag "w:tbl") (below (dx_body en_doc)))) by (apply filter_In; split; [exact I | apply is_tag_iff; exact T]).
  assert (E : filter (is_tag "w:tbl") (below (dx_body en_doc)) = [en_tbl]) by (vm_compute; reflexivity). rewrite E in J. destruct J as [<-|[]]. reflexivity.
Qed.
Lemma wk_regular : regular_tables en_doc.
Proof. intros t I T. rewrite (wk_one t I T). exists en_rows. destruct en_regular as (L & A & _). auto. Qed.
Lemma wk_rows : tables_have_rows en_doc.
Proof. intros t I T. rewrite (wk_one t I T). unfold en_tbl. cbn [w_kids]. eexists. split; [left; reflexivity | reflexivity]. Qed.
Lemma wk_ready : docx_ready dk_version (utf8 "a") dk_pack.
Proof.
  exists en_doc, (utf8 "Demo Spec"), (utf8 "1.0"), en_us. split; [apply dk_holds; auto|]. split; [constructor|]. split; [constructor|]. split; [exact dk_usual|]. split; [exact wk_regular|]. split; [exact wk_rows|].
  split; [apply C81_document; [exact wk_regular | vm_compute; reflexivity]|].
  intros q I E. assert (F : forallb (fun q => negb (seqb (fst (fst q)) (utf8 "demo spec"))) QUIRKS_MAP = true) by (vm_compute; reflexivity).
  rewrite forallb_forall in F. specialize (F q I). rewrite E in F. vm_compute in F. discriminate F.
Qed.
Definition wk_cmd : command := mkCommand true (Some (utf8 "T1001")) false (utf8 "out") (utf8 "in") [dk_a; dk_b].
Definition wk_docx : command := mkCommand true None false (utf8 "out") (utf8 "in") [dk_a].
(** The conditions of C85_skip, and those of C85_success, for a docx and an HTML file. *)
Example C85_ex_skip : exists w st, Disk.runs dk_version dk_read wk_docx dk_disk w st /\ k_inputs wk_docx <> [] /\ ignores (k_ignore wk_docx) []
  /\ forall p, In p (k_inputs wk_docx) -> exists stem pk, docx_file p stem /\ dk_disk p = Some (Package pk) /\ docx_ready dk_version stem pk.
Proof.
  destruct (C85_total dk_version dk_read wk_docx dk_disk) as (w & st & R & _). exists w, st. split; [exact R|]. split; [discriminate|]. split; [reflexivity|].
  intros p [<-|[]]. exists (utf8 "a"), dk_pack. split; [exact dk_named_a|]. split; [reflexivity | exact wk_ready].
Qed.
Example C85_ex : exists w st ig, Disk.runs dk_version dk_read wk_cmd dk_disk w st /\ k_inputs wk_cmd <> [] /\ ignores (k_ignore wk_cmd) ig
  /\ forall p, In p (k_inputs wk_cmd) -> input_works dk_version wk_cmd dk_disk p.
Proof.
  destruct (C85_total dk_version dk_read wk_cmd dk_disk) as (w & st & R & _). exists w, st, [T1001]. split; [exact R|]. split; [discriminate|].
  split; [apply Prop_Cli.C61_codes; vm_compute; reflexivity|].
  intros p [<-|[<-|[]]].
  - exists (utf8 "a"). right. split; [exact dk_named_a|]. exists dk_pack. split; [reflexivity|]. apply ready_works. exact wk_ready.
  - exists (utf8 "b"). left. split; [exact dk_named_b|]. split.
    + intros (p & stem & [<-|[<-|[]]] & N & E); discriminate E.
    + destruct (read_xml en_file) as [root|] eqn:E; [|vm_compute in E; discriminate E].
      exists en_file, root. split; [reflexivity|]. split; [apply read_xml_iff; exact E|].
      assert (X : match read_xml en_file with
                  | Some r => match meta_attrs (utf8 "data-spec") r, meta_attrs (utf8 "data-revision") r with
                              | k :: _, v :: _ => match fst (parse_doc (get_parser true (lower k) (lower v)) r) with Ok _ => true | _ => false end
                              | _, _ => false
                              end
                  | None => false
                  end = true) by (vm_compute; reflexivity).
      rewrite E in X. cbn [k_skip k_validate wk_cmd]. destruct (meta_attrs (utf8 "data-spec") root) as [|k ks] eqn:K; [discriminate X|].
      destruct (meta_attrs (utf8 "data-revision") root) as [|v vs] eqn:V; [discriminate X|].
      destruct (parse_doc (get_parser true (lower k) (lower v)) root) as [[[]|e|] es] eqn:PD; try discriminate X.
      exists es. split; [|discriminate]. exists k, v. split; [apply Prop_Output.first_attr_iff; eauto|]. split; [apply Prop_Output.first_attr_iff; eauto|].
      apply C80_document; [apply tame_parsers | apply struct_parsers|]. exists (Ok tt). auto.
Qed.
