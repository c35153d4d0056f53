(** C82, C83, C84: runs that meet the conditions, and what does not hold. *)
From Coq Require Import NArith ZArith List Bool String Lia.
From Coq Require Import ZifyBool ZifyN ZifyNat.
From Verif Require Import PyStr PyStrFacts Xml Json JsonText Lint Extract Document Output Schema Cli Docx Render Css Disk.
From Verif Require Import SpecText SpecFmt SpecDocx SpecXml SpecCli SpecJson SpecDisk XmlProofs Prop_List Prop_Xml Prop_Css Prop_CssEx Prop_End DiskProofs Prop_Json Prop_Disk.
Import ListNotations.
Local Open Scope string_scope.
Local Open Scope list_scope.
Local Open Scope N_scope.

(** A reader of XML. *)
Definition dk_read (s : str) : source := match read_xml s with Some t => Tree t | None => Unreadable end.
Lemma dk_reads : reads_xml dk_read.
Proof. intros s t X. unfold dk_read. rewrite (proj2 (read_xml_iff s t) X). reflexivity. Qed.
Definition dk_version : str := utf8 "1.0".
Local Notation runs := (Disk.runs dk_version dk_read).

(** A way to run the program: files are written without indentation. *)
Definition dk_convert (out stem : str) (p : package) : option effects :=
  match open_docx p with
  | DOk (d, h) =>
      match parse_docx d with
      | DOk us => let (ts, c) := html_doc dk_version stem (header_title h) (header_revision h) us in
                  Some [((out, stem ++ utf8 ".css"), unindented (css_lines (dx_num d) c)); ((out, stem ++ utf8 ".html"), html_text ts)]
      | _ => None
      end
  | _ => None
  end.
Definition dk_json (args : pargs) (inp : Output.input) (q : path) : option effects :=
  let r := parse_spec dk_version args false None inp in
  match r_file r, r_end r with Some m, Finished => Some [(q, []); (q, file_text m)] | _, _ => None end.
Definition dk_process (args : pargs) (out : str) (d : disk) (p : path) : option effects :=
  if seqb (path_suffix (snd p)) (utf8 ".html")
  then dk_json args (Html (source_of dk_read (disk_after [((out, json_name (snd p)), [])] d p))) (out, json_name (snd p))
  else if seqb (path_suffix (snd p)) (utf8 ".docx") then
    match d p with
    | Some (Package pk) =>
        match dk_convert out (drop_suffix (snd p)) pk with
        | Some w =>
            let q := (out, json_name (html_name (snd p))) in
            match dk_json args (Docx 0 [] false (source_of dk_read (disk_after (w ++ [(q, [])]) d (out, html_name (snd p))))) q with
            | Some w' => Some (w ++ w')
            | None => None
            end
        | None => None
        end
    | _ => None
    end
  else None.
Fixpoint dk_loop (args : pargs) (out : str) (d : disk) (ins : list path) : option effects :=
  match ins with
  | [] => Some []
  | p :: ins =>
      match dk_process args out d p with
      | Some w => match dk_loop args out (disk_after w d) ins with Some w' => Some (w ++ w') | None => None end
      | None => None
      end
  end.
Lemma dk_convert_ok out stem p w : dk_convert out stem p = Some w -> convert dk_version out stem (Some (Package p)) w false.
Proof.
  unfold dk_convert. destruct (open_docx p) as [[d h]| |] eqn:O; try discriminate. destruct (parse_docx d) as [us| |] eqn:P; try discriminate.
  destruct (html_doc dk_version stem (header_title h) (header_revision h) us) as [ts c] eqn:H. intros [= <-].
  eapply cv_done; eauto; [apply html_text_writes | apply unindented_written].
Qed.
Lemma dk_process_ok args out d p w : dk_process args out d p = Some w ->
  In (path_suffix (snd p)) [utf8 ".html"; utf8 ".docx"] /\ exists m, process dk_version dk_read args out d p w (Some m) Finished.
Proof.
  destruct p as [dir name]. unfold dk_process. cbn [snd]. destruct (seqb (path_suffix name) (utf8 ".html")) eqn:H.
  - apply seqb_eq in H. rewrite H. intros E. split; [left; reflexivity|]. unfold dk_json in E.
    remember (parse_spec dk_version args false None (Html (source_of dk_read (disk_after [((out, json_name name), [])] d (dir, name))))) as r eqn:R.
    destruct (r_file r) as [m|] eqn:F; [|discriminate]. destruct (r_end r) eqn:RE; [|discriminate]. injection E as <-. exists m. rewrite <- RE.
    eapply pr_html; eauto. rewrite H. discriminate.
  - destruct (seqb (path_suffix name) (utf8 ".docx")) eqn:D; [|discriminate]. apply seqb_eq in D. rewrite D. intros E. split; [right; left; reflexivity|].
    destruct (d (dir, name)) as [[s|pk|]|] eqn:DP; try discriminate. destruct (dk_convert out (drop_suffix name) pk) as [w0|] eqn:C; [|discriminate].
    apply dk_convert_ok in C. unfold dk_json in E.
    remember (parse_spec dk_version args false None (Docx 0 [] false (source_of dk_read (disk_after (w0 ++ [((out, json_name (html_name name)), [])]) d (out, html_name name))))) as r eqn:R.
    destruct (r_file r) as [m|] eqn:F; [|discriminate]. destruct (r_end r) eqn:RE; [|discriminate]. injection E as <-. exists m. rewrite <- RE.
    eapply pr_docx; eauto. rewrite DP. exact C.
Qed.
Lemma dk_loop_ok args out : forall ins d w, dk_loop args out d ins = Some w -> loop dk_version dk_read args false out d ins w 0.
Proof.
  induction ins as [|p ins IH]; intros d w; cbn [dk_loop]; [intros [= <-]; constructor|].
  destruct (dk_process args out d p) as [w1|] eqn:P; [|discriminate]. destruct (dk_loop args out (disk_after w1 d) ins) as [w2|] eqn:L; [|discriminate]. intros [= <-].
  apply dk_process_ok in P as (A & m & P). eapply lp_next; [exact A | exact P | reflexivity | apply IH; exact L].
Qed.

(** A docx file and an HTML file in one directory, and another one for the outputs, in which there
    is an old JSON file. *)
Definition dk_header : welem := lx_e "w:hdr" [] [lx_e "w:p" [] [lx_e "w:r" [] [W 0 (utf8 "w:t") [] (Some (utf8 "Demo Spec, Revision 1.0")) []]]].
Definition dk_pack : package := mkPackage (Some (dx_body en_doc)) None (Some dk_header) (Some (dx_styles en_doc)).
Definition dk_a : path := (utf8 "in", utf8 "a.docx").
Definition dk_b : path := (utf8 "in", utf8 "b.html").
Definition dk_old : path := (utf8 "out", utf8 "a.json").
Definition dk_disk : disk := fun q =>
  if same q dk_a then Some (Package dk_pack) else if same q dk_b then Some (Text en_file) else if same q dk_old then Some (Text (utf8 "{}")) else None.
Definition dk_cmd : command := mkCommand false None false (utf8 "out") (utf8 "in") [dk_a; dk_b].
Definition dk_w : effects := match dk_loop (mkArgs false []) (utf8 "out") dk_disk [dk_a; dk_b] with Some w => w | None => [] end.
Lemma dk_some : match dk_loop (mkArgs false []) (utf8 "out") dk_disk [dk_a; dk_b] with Some _ => true | None => false end = true.
Proof. vm_compute. reflexivity. Qed.
Example C82_ex : runs dk_cmd dk_disk dk_w 0
  /\ map fst dk_w = [(utf8 "out", utf8 "a.css"); (utf8 "out", utf8 "a.html"); (utf8 "out", utf8 "a.json"); (utf8 "out", utf8 "a.json");
                     (utf8 "out", utf8 "b.json"); (utf8 "out", utf8 "b.json")].
Proof.
  split; [|vm_compute; reflexivity]. pose proof dk_some as S. unfold Disk.runs. change (k_inputs dk_cmd) with [dk_a; dk_b].
  replace (forallb (found dk_disk) [dk_a; dk_b]) with true by (vm_compute; reflexivity). cbn [k_ignore dk_cmd k_skip k_validate k_out]. unfold dk_w.
  destruct (dk_loop (mkArgs false []) (utf8 "out") dk_disk [dk_a; dk_b]) as [w|] eqn:E; [|discriminate S]. apply dk_loop_ok. exact E.
Qed.

(** *** C83 *)
Lemma dk_named_a : docx_file dk_a (utf8 "a").
Proof. apply (named_ext (utf8 "a") (utf8 "docx")); [discriminate | discriminate | intros X; repeat (destruct X as [X|X]; [discriminate X|]); exact X]. Qed.
Lemma dk_named_b : html_file dk_b (utf8 "b").
Proof. apply (named_ext (utf8 "b") (utf8 "html")); [discriminate | discriminate | intros X; repeat (destruct X as [X|X]; [discriminate X|]); exact X]. Qed.
Lemma dk_usual : usual en_doc dk_version (utf8 "a") (utf8 "Demo Spec") (Some (utf8 "1.0")).
Proof.
  assert (H : usual_doc en_doc = true) by (vm_compute; reflexivity).
  apply andb_true_iff in H as [H H4]. apply andb_true_iff in H as [H H3]. apply andb_true_iff in H as [H1 H2].
  split; [apply texts_okay; exact H1|]. split.
  - assert (X : forallb (forallb (fun c => xml_charb c && negb (c =? 34) && negb (c =? 38) && negb (c =? 60) && negb (c =? 62) && negb (c =? 9) && negb (c =? 10) && negb (c =? 13)))
      ([dk_version; utf8 "a"; utf8 "Demo Spec"] ++ [utf8 "1.0"]) = true) by (vm_compute; reflexivity).
    apply Forall_forall. intros h I. rewrite forallb_forall in X. specialize (X h I). rewrite forallb_forall in X.
    split; apply Forall_forall; intros c C; specialize (X c C); repeat (apply andb_true_iff in X as [X ?]); [lia | apply xml_charb_iff; exact X].
  - split.
    + intros x v [N|N] T A _; [exact (colours_okay "w:color" "w:val" (dx_body en_doc) H2 x v N T A) | exact (colours_okay "w:color" "w:val" (dx_styles en_doc) H3 x v N T A)].
    + intros x v N T A _. exact (colours_okay "w:shd" "w:fill" (dx_body en_doc) H4 x v N T A).
Qed.
Lemma dk_open : open_docx dk_pack = DOk (en_doc, utf8 "Demo Spec, Revision 1.0").
Proof. vm_compute. reflexivity. Qed.
Lemma dk_holds d t r : holds_document dk_pack d t r <-> d = en_doc /\ t = utf8 "Demo Spec" /\ r = Some (utf8 "1.0").
Proof.
  assert (H : holds_document dk_pack en_doc (utf8 "Demo Spec") (Some (utf8 "1.0"))).
  { pose proof (open_holds _ _ _ dk_open) as H. replace (header_title (utf8 "Demo Spec, Revision 1.0")) with (utf8 "Demo Spec") in H by (vm_compute; reflexivity).
    replace (header_revision (utf8 "Demo Spec, Revision 1.0")) with (Some (utf8 "1.0")) in H by (vm_compute; reflexivity). exact H. }
  split; [intros X; exact (C83_one _ _ _ _ _ _ _ X H) | intros (-> & -> & ->); exact H].
Qed.
(** The conditions of C83_docx and C83_html. *)
Example C83_ex : exists d', reads_xml dk_read /\ runs dk_cmd dk_disk dk_w 0 /\ leaves dk_cmd dk_w dk_disk d'
  /\ k_inputs dk_cmd = [] ++ dk_a :: [dk_b] /\ docx_file dk_a (utf8 "a") /\ (forall p, In p [dk_b] -> ~ has_stem p (utf8 "a"))
  /\ k_inputs dk_cmd = [dk_a] ++ dk_b :: [] /\ html_file dk_b (utf8 "b") /\ ~ overlap (utf8 "out") [dk_a] dk_b
  /\ (forall doc title rev, holds_document dk_pack doc title rev -> usual doc dk_version (utf8 "a") title rev)
  /\ d' (utf8 "out", utf8 "a.json") <> dk_disk (utf8 "out", utf8 "a.json").
Proof.
  exists (disk_after dk_w dk_disk). split; [exact dk_reads|]. split; [apply C82_ex|]. split; [intros q _; reflexivity|]. split; [reflexivity|]. split; [exact dk_named_a|].
  split; [intros p [<-|[]] H; pose proof (has_stem_one _ _ _ H (or_intror dk_named_b)); discriminate|]. split; [reflexivity|]. split; [exact dk_named_b|].
  split; [intros (p & stem & _ & _ & E); discriminate E|]. split; [intros doc t r H; apply dk_holds in H as (-> & -> & ->); exact dk_usual|].
  assert (X : match disk_after dk_w dk_disk (utf8 "out", utf8 "a.json") with Some (Text s) => negb (seqb s (utf8 "{}")) | _ => false end = true) by (vm_compute; reflexivity).
  intros E. rewrite E in X. vm_compute in X. discriminate X.
Qed.

(** Without the condition that no docx input has the same name, an HTML input may be replaced: a
    docx file and the HTML file next to it, in the output directory. *)
Definition ow_a : path := (utf8 "out", utf8 "a.docx").
Definition ow_b : path := (utf8 "out", utf8 "a.html").
Definition ow_disk : disk := fun q => if same q ow_a then Some (Package dk_pack) else if same q ow_b then Some (Text (utf8 "<p/>")) else None.
Definition ow_cmd : command := mkCommand false None false (utf8 "out") (utf8 "out") [ow_a; ow_b].
Definition ow_w : effects := match dk_loop (mkArgs false []) (utf8 "out") ow_disk [ow_a; ow_b] with Some w => w | None => [] end.
Lemma ow_some : match dk_loop (mkArgs false []) (utf8 "out") ow_disk [ow_a; ow_b] with Some _ => true | None => false end = true.
Proof. vm_compute. reflexivity. Qed.
Theorem C82_replaced_refuted : exists d', runs ow_cmd ow_disk ow_w 0 /\ leaves ow_cmd ow_w ow_disk d' /\ In ow_b (k_inputs ow_cmd) /\ d' ow_b <> ow_disk ow_b.
Proof.
  exists (disk_after ow_w ow_disk). split; [|split; [intros q _; reflexivity|split; [right; left; reflexivity|]]].
  - pose proof ow_some as S. unfold Disk.runs. change (k_inputs ow_cmd) with [ow_a; ow_b].
    replace (forallb (found ow_disk) [ow_a; ow_b]) with true by (vm_compute; reflexivity). cbn [k_ignore ow_cmd k_skip k_validate k_out]. unfold ow_w.
    destruct (dk_loop (mkArgs false []) (utf8 "out") ow_disk [ow_a; ow_b]) as [w|] eqn:E; [|discriminate S]. apply dk_loop_ok. exact E.
  - assert (X : match disk_after ow_w ow_disk ow_b with Some (Text s) => negb (seqb s (utf8 "<p/>")) | _ => false end = true) by (vm_compute; reflexivity).
    intros E. rewrite E in X. vm_compute in X. discriminate X.
Qed.
Print Assumptions C82_replaced_refuted.

(** *** C84 *)

(** An interruption that leaves a part of a JSON file. *)
Definition cut_disk : disk := fun q => if same q dk_old then Some (Text (utf8 "{")) else disk_after (firstn 2 dk_w) dk_disk q.
Example C84_ex : interrupted dk_cmd dk_w dk_disk cut_disk /\ cut_disk dk_old <> dk_disk dk_old /\ cut_disk dk_old <> disk_after dk_w dk_disk dk_old
  /\ (forall p, In p (k_inputs dk_cmd) -> exists stem, has_stem p stem)
  /\ (forall p, In p (k_inputs dk_cmd) -> ~ overlap (k_out dk_cmd) (k_inputs dk_cmd) p).
Proof.
  split; [|split; [|split; [|split]]].
  - intros q _. unfold cut_disk. destruct (same q dk_old) eqn:Q.
    + apply same_iff in Q. subst q. exists (firstn 3 dk_w), (skipn 3 dk_w). split; [symmetry; apply firstn_skipn|]. right.
      destruct (skipn 3 dk_w) as [|[q t] w3] eqn:W; [vm_compute in W; discriminate W|].
      assert (X : match skipn 3 dk_w with (q, c :: r) :: _ => same q dk_old && (c =? 123) | _ => false end = true) by (vm_compute; reflexivity).
      rewrite W in X. destruct t as [|c t]; [discriminate X|]. apply andb_true_iff in X as [X1 X2]. apply same_iff in X1. apply N.eqb_eq in X2. subst. exists (utf8 "{"), t, w3. auto.
    + exists (firstn 2 dk_w), (skipn 2 dk_w). split; [symmetry; apply firstn_skipn | left; reflexivity].
  - vm_compute. discriminate.
  - assert (X : match disk_after dk_w dk_disk dk_old with Some (Text s) => negb (seqb s (utf8 "{")) | _ => false end = true) by (vm_compute; reflexivity).
    intros E. rewrite <- E in X. vm_compute in X. discriminate X.
  - intros p [<-|[<-|[]]]; [exists (utf8 "a"); left; exact dk_named_a | exists (utf8 "b"); right; exact dk_named_b].
  - intros p [<-|[<-|[]]] (x & stem & _ & _ & E); discriminate E.
Qed.

(** A run that fails while a docx file is converted, and leaves a part of the HTML file. *)
Definition bad_tbl : welem := lx_e "w:tbl" [] [lx_e "w:tr" [] [lx_e "w:tc" [] [lx_e "w:tcPr" [] [lx_e "w:gridSpan" [("w:val", "x")] []]]]].
Definition bad_pack : package := mkPackage (Some (W 200 (utf8 "w:document") [] None [W 201 (utf8 "w:body") [] None [en_tbl; bad_tbl]])) None (Some dk_header) (Some (dx_styles en_doc)).
Definition bad_disk : disk := fun q => if same q dk_a then Some (Package bad_pack) else None.
Definition bad_cmd : command := mkCommand false None false (utf8 "out") (utf8 "in") [dk_a].
Definition bad_doc : docx := mkDocx (W 200 (utf8 "w:document") [] None [W 201 (utf8 "w:body") [] None [en_tbl; bad_tbl]]) None (dx_styles en_doc).
Definition bad_us : list hunit * list N := match parse_tables bad_doc [en_tbl] [] with DOk x => x | _ => ([], []) end.
Definition bad_html : str :=
  html_text (html_head dk_version (utf8 "a") (utf8 "Demo Spec") (Some (utf8 "1.0")) ++ [TOpen (utf8 "body") []; TNl] ++ fst (render_all render_unit (fst bad_us) no_caches)).
Definition bad_css : str := unindented (css_prelude None).
Definition bad_w : effects := [((utf8 "out", utf8 "a.css"), bad_css); ((utf8 "out", utf8 "a.html"), bad_html)].
Example C84_ex_partial : runs bad_cmd bad_disk bad_w 1 /\ (exists a b, bad_html = a ++ utf8 "Figure 7: Demo" ++ b) /\ forall root, ~ xdocument bad_html root.
Proof.
  split; [|split].
  - unfold Disk.runs. change (k_inputs bad_cmd) with [dk_a]. replace (forallb (found bad_disk) [dk_a]) with true by (vm_compute; reflexivity).
    cbn [k_ignore bad_cmd k_skip k_validate k_out]. apply (lp_fails _ _ _ _ _ _ _ _ _ None (Failed PConvert)); [right; left; reflexivity | | reflexivity]. apply pr_raised; [reflexivity|].
    change (bad_disk (utf8 "in", utf8 "a.docx")) with (Some (Package bad_pack)). change (drop_suffix (utf8 "a.docx")) with (utf8 "a").
    assert (O : open_docx bad_pack = DOk (bad_doc, utf8 "Demo Spec, Revision 1.0")) by (vm_compute; reflexivity).
    assert (P : parse_tables bad_doc [en_tbl] [] = DOk (fst bad_us, snd bad_us)) by (vm_compute; reflexivity).
    assert (W : w_all "w:tbl" (dx_body bad_doc) = [en_tbl] ++ bad_tbl :: []) by (vm_compute; reflexivity).
    assert (F : match parse_table (parse_any bad_doc (any_fuel (w_kids bad_tbl))) bad_tbl (snd bad_us) with DOk _ => False | _ => True end) by (vm_compute; exact Logic.I).
    apply (cv_raised dk_version (utf8 "out") (utf8 "a") _ _ _ _ _ _ _ _ _ _ _ _ O W P F (surjective_pairing _)); [|apply unindented_written].
    replace (header_title (utf8 "Demo Spec, Revision 1.0")) with (utf8 "Demo Spec") by (vm_compute; reflexivity).
    replace (header_revision (utf8 "Demo Spec, Revision 1.0")) with (Some (utf8 "1.0")) by (vm_compute; reflexivity). apply html_text_writes.
  - exists (firstn 263 bad_html), (skipn (263 + 14) bad_html). vm_compute. reflexivity.
  - intros root X. apply read_xml_iff in X. vm_compute in X. discriminate X.
Qed.
