(** C78: from the cells of a docx table to the JSON document. *)
From Coq Require Import NArith ZArith List Bool String Lia ZifyBool ZifyN ZifyNat.
From Verif Require Import GridProofs PyTables PyStr PyStrFacts Xml Json Docx Render Lint RowIter Helpers Extract Document Output
  SpecText SpecFields SpecLabel SpecHeader SpecRows SpecTable SpecDoc SpecRun SpecOutput SpecReads SpecFmt SpecDocx SpecGrid SpecHtml SpecTables SpecJson SpecStage2
  MFacts DocProofs DocRuns SpecXml XmlProofs XmlText XmlNeat TablesOnce DocxTotal Prop_Docx Prop_Doc Prop_Reads Prop_Html Prop_Tables Prop_Xml Prop_Output JsonText Prop_Json Prop_Stage2
  SpecEnd EndProofs EndRows EndFigure SpecNames NameProofs CellRead.
Import ListNotations.
Local Open Scope string_scope.
Local Open Scope list_scope.

Theorem C78_figure d us version fname title rev ts c s root P es tbl rows ftitle x b :
  (forall x t, In x (nodes (dx_body d)) -> w_text x = Some t -> Forall (fun c => xml_char c /\ c <> 13%N) t) ->
  Forall (fun h => SpecDocx.plain h /\ Forall xml_char h) ([version; fname; title] ++ match rev with Some r => [r] | None => [] end) ->
  SpecTables.distinct d -> spans_ok d -> parse_docx d = DOk us -> html_doc version fname title rev us = (ts, c) -> Render.writes ts s -> xdocument s root ->
  tame P -> struct_overrides P -> parse_doc P root = (Ok tt, es) ->
  In tbl (w_all "w:tbl" (dx_body d)) -> ~ in_place d tbl -> regular tbl rows -> figure_table P rows ftitle x b ->
  In (EvEnt (mkEntity (x_meta x) b)) es.
Proof.
  intros TX PL DI SP PD HD WR XD TM SO RUN IT NP RG FT.
  destruct (C73_file d us version fname title rev ts c s TX PL PD HD WR) as (root' & _ & U & DS). specialize (U root XD). subst root'.
  destruct (C44_places _ _ _ _ _ _ _ _ _ DI SP PD DS) as (f & trees & FI & F1 & F2).
  assert (IF : In tbl (filter f (w_all "w:tbl" (dx_body d)))) by (apply filter_In; split; [exact IT | apply FI; assumption]).
  apply In_nth_error in IF as [i IF]. destruct (Forall2_at _ _ _ F1 i tbl IF) as (t & NT & TT). destruct (Forall2_at _ _ _ F2 i t NT) as (e & NE & TS).
  inversion TT as [y l _]; subst. inversion TS as [? ? ? RD _]; subst.
  destruct (figure_read _ _ _ _ _ _ P RG RD ftitle x b FT) as (tb & ID & HN & TG & CE & NN).
  eapply C77_document; try eassumption; [exact (nth_error_In _ _ NE)|]. intros n NF. destruct (NN n NF).
Qed.
Print Assumptions C78_figure.

(** The file written by the program, as text. *)
Theorem C78_file d us version fname title rev ts c s root args b inp tbl rows ftitle x bd :
  (forall x t, In x (nodes (dx_body d)) -> w_text x = Some t -> Forall (fun c => xml_char c /\ c <> 13%N) t) ->
  Forall (fun h => SpecDocx.plain h /\ Forall xml_char h) [version; fname; title; rev] ->
  SpecTables.distinct d -> spans_ok d -> parse_docx d = DOk us -> html_doc version fname title (Some rev) us = (ts, c) -> Render.writes ts s -> xdocument s root ->
  html_of inp = Tree root -> converted inp -> r_end (parse_spec version args b None inp) = Finished ->
  In tbl (w_all "w:tbl" (dx_body d)) -> ~ in_place d tbl -> regular tbl rows ->
  figure_table (get_parser (a_skip args) (lower title) (lower rev)) rows ftitle x bd ->
  exists dm j m js jn, r_file (parse_spec version args b None inp) = Some dm /\ json_text (file_text dm) j
    /\ object j [("meta", m); ("entities", JList js)] /\ In jn js /\ SpecStage2.says (mkEntity (x_meta x) bd) jn.
Proof.
  intros TX PL DI SP PD HD WR XD HO CV FN IT NP RG FT.
  destruct (C73_file d us version fname title (Some rev) ts c s TX PL PD HD WR) as (root' & _ & U & DS). specialize (U root XD). subst root'.
  set (P := get_parser (a_skip args) (lower title) (lower rev)) in *. destruct (parse_doc P root) as [r es] eqn:RUN.
  assert (KV : first_attr root "data-spec" title /\ first_attr root "data-revision" rev) .
  { destruct DS as (xh & xb & x1 & t1 & t2 & t3 & t4 & t5 & t6 & ks & -> & _ & _). split; apply first_attr_iff; eexists; reflexivity. }
  destruct KV as [K V].
  destruct (C33_written version args b inp root title rev r es HO CV K V RUN) as (dm & _ & _ & [(-> & _) | (ex & _ & F & _)]); [|congruence].
  destruct (C71_figures version args b inp root title rev _ es HO CV K V RUN) as (dm' & j & m & js & RF & JT & OB & SY).
  assert (IE : In (EvEnt (mkEntity (x_meta x) bd)) es).
  { eapply (C78_figure d us version fname title (Some rev)); try eassumption; [apply tame_parsers | apply struct_parsers]. }
  apply In_ents_of in IE. apply In_nth_error in IE as [i IE]. destruct (Forall2_at _ _ _ SY i _ IE) as (jn & NJ & SJ). apply nth_error_In in NJ. exists dm', j, m, js, jn. auto.
Qed.
Print Assumptions C78_file.

(** ** A document with one figure: a title row, a header row, two rows sharing a cell, one more
    row and a note. *)
Definition en_tc (n : N) (props : list welem) (t : string) : welem :=
  W n (utf8 "w:tc") [] None [W (n + 1) (utf8 "w:tcPr") [] None props;
    W (n + 4) (utf8 "w:p") [] None [W (n + 5) (utf8 "w:r") [] None [W (n + 6) (utf8 "w:t") [] (Some (utf8 t)) []]]].
Definition en_val (n : N) (tag a v : string) : welem := W (n + 2) (utf8 tag) [(utf8 a, utf8 v)] None [].
Definition en_title := en_tc 10 [en_val 10 "w:gridSpan" "w:val" "2"] "Figure 7: Demo".
Definition en_bytes := en_tc 20 [en_val 20 "w:shd" "w:fill" "D9D9D9"] "Bytes".
Definition en_descr := en_tc 30 [en_val 30 "w:shd" "w:fill" "D9D9D9"] "Description ".
Definition en_k1 := en_tc 40 [] "1:0".
Definition en_c1 := en_tc 50 [en_val 50 "w:vMerge" "w:val" "restart"] "Reserved".
Definition en_k2 := en_tc 60 [] "2".
Definition en_c2 := en_tc 70 [W 72 (utf8 "w:vMerge") [] None []] "".
Definition en_k3 := en_tc 80 [] " 3".
Definition en_c3 := en_tc 90 [] "Flag Name (FLG): a <flag>".
Definition en_note := en_tc 100 [en_val 100 "w:gridSpan" "w:val" "2"] "Notes: none".
Definition en_tbl : welem := W 1 (utf8 "w:tbl") [] None
  (map (fun p => W (fst p) (utf8 "w:tr") [] None (snd p))
    [(2%N, [en_title]); (3%N, [en_bytes; en_descr]); (4%N, [en_k1; en_c1]); (5%N, [en_k2; en_c2]); (6%N, [en_k3; en_c3]); (7%N, [en_note])]).
Definition en_rows : list (list wcell) :=
  [[mkWc en_title 2 false]; [mkWc en_bytes 1 false; mkWc en_descr 1 false]; [mkWc en_k1 1 false; mkWc en_c1 1 false];
   [mkWc en_k2 1 false; mkWc en_c2 1 true]; [mkWc en_k3 1 false; mkWc en_c3 1 false]; [mkWc en_note 2 false]].
Definition en_doc : docx := mkDocx (W 200 (utf8 "w:document") [] None [W 201 (utf8 "w:body") [] None [en_tbl]]) None (W 202 (utf8 "w:styles") [] None []).
Definition en_parser : parser := get_parser false (utf8 "demo spec") (utf8 "1.0").
Definition en_x : xctx := mkX BytesTableExtractor (mkMeta (Some (utf8 "Figure 7: Demo")) (utf8 "7") None) 0 1 1.
Definition en_fields : list sfield :=
  [mkSField (utf8 "RESERVED") (RInt 0 1) None; mkSField (utf8 "RESERVED") (RInt 2 2) None;
   mkSField (utf8 "flg") (RInt 3 3) (Some (utf8 "a <flag>"))].

Lemma en_cell n props (t : string) u : strip (utf8 t) = u -> forallb (fun k => negb (seqb (w_tag k) (utf8 "w:numPr"))) props = true -> cell_says (en_tc n props t) u.
Proof.
  intros T F. eexists [_], _, [], [_], [utf8 t]. split; [reflexivity|]. split; [reflexivity|].
  split; [intros pr np [C TG]; cbn [w_kids] in C; destruct C as [<-|[]]; discriminate TG|].
  split; [constructor; [left; split; discriminate | constructor]|].
  split; [apply rn_run; [reflexivity | constructor]|].
  split; [apply rt_text; [eexists; split; [exists [], []; split; [reflexivity|]; split; [reflexivity | constructor] | reflexivity] | constructor]|].
  split; [discriminate|]. cbn [List.concat]. rewrite app_nil_r, <- T. apply HeaderProofs.strip_trims.
Qed.
Ltac en_c := apply en_cell; [vm_compute; reflexivity | reflexivity].
Lemma en_own rows r j row y c t : nth_error rows r = Some row -> nth_error (SpecGrid.placed 0 row) j = Some (y, c) -> wc_cont c = false -> (1 <= wc_span c)%nat ->
  cell_says (wc_tc c) t -> SpecEnd.says rows r j t.
Proof.
  intros R P C S T. exists row, y, c, (wc_tc c). split; [exact R|]. split; [exact P|]. split; [|exact T].
  eapply sh_own; [exact R | apply TilingProofs.placed_begins0; eapply nth_error_In; exact P | lia | exact C].
Qed.
Ltac en_s := eapply en_own; [reflexivity | reflexivity | reflexivity | repeat constructor | en_c].
Lemma en_number t r f : parse_range en_x t [] f = (Ok r, f, []) -> reads_numbers t r.
Proof. intros H. apply (TableProofs.parse_range_inv en_x t [] f r f []); [discriminate | exact H]. Qed.
Lemma en_data r row : nth_error en_rows r = Some row -> r <> 1%nat -> ~ header_row row.
Proof.
  intros R N (p & O & T). destruct r as [|[|[|[|[|[|r]]]]]]; [| congruence | | | | |destruct r; discriminate]; cbn in R; injection R as <-; cbn in O;
    repeat (destruct O as [<-|O]; [vm_compute in T; discriminate|]); destruct O.
Qed.
Lemma en_regular : regular en_tbl en_rows.
Proof.
  split; [wlayout|].
  assert (CT : forall r x row c, nth_error en_rows r = Some row -> begins row x c -> wc_cont c = true -> r = 3%nat /\ x = 1%nat).
  { intros r x row c R B C. apply TilingProofs.placed_begins0 in B. destruct r as [|[|[|[|[|[|r]]]]]]; [ | | | | | |destruct r; discriminate]; cbn in R; injection R as <-; cbn in B;
      repeat (destruct B as [[= <- <-]|B]; [try discriminate C|]); try destruct B. auto. }
  split.
  { intros r row x c R B C. destruct (CT _ _ _ _ R B C) as [-> ->]. apply TilingProofs.placed_begins0 in B. cbn in R; injection R as <-. cbn in B. destruct B as [[= <-]|[[= <-]|[]]].
    exists 2%nat, (nth 2 en_rows []), (mkWc en_c1 1 false). split; [reflexivity|]. split; [reflexivity|]. split; [apply TilingProofs.placed_begins0; right; left; reflexivity | reflexivity]. }
  split.
  { intros r x (row & c & R & B & C). destruct (CT _ _ _ _ R B C) as [E ->]. injection E as ->. split; intros row' R'; eapply en_data; try exact R'; discriminate. }
  split; [intros row [<-|[<-|[<-|[<-|[<-|[<-|[]]]]]]]; discriminate|].
  exists 2%nat. split; [intros row [<-|[<-|[<-|[<-|[<-|[<-|[]]]]]]] _; reflexivity|].
  split; (eapply N.lt_le_trans; [|apply (N.pow_le_mono_r 10 1); discriminate || lia]); reflexivity.
Qed.
Lemma en_figure : figure_table en_parser en_rows (utf8 "Figure 7: Demo") en_x (BStruct KBytes en_fields).
Proof.
  split; [split; [eexists; reflexivity | en_s]|]. split.
  - exists (utf8 "7"), [mkWc en_bytes 1 false; mkWc en_descr 1 false], [utf8 "bytes"; utf8 "description"].
    split; [apply figure_id_iff; vm_compute; reflexivity|]. split; [reflexivity|].
    split; [eexists; split; [left; reflexivity|]; vm_compute; reflexivity|].
    split; [constructor; [|constructor; [|constructor]]|].
    + exists (utf8 "Bytes"). split; [en_c|]. eexists. split; [apply HeaderProofs.clean_form|]. right. split; [intros v K; apply HeaderProofs.variant_of_iff in K; vm_compute in K; discriminate | vm_compute; reflexivity].
    + exists (utf8 "Description"). split; [en_c|]. eexists. split; [apply HeaderProofs.clean_form|]. right. split; [intros v K; apply HeaderProofs.variant_of_iff in K; vm_compute in K; discriminate | vm_compute; reflexivity].
    + split; [reflexivity|]. split; [left; split; [reflexivity|]; split; [left; reflexivity | right; left; reflexivity]|].
      exists (utf8 "bytes"), (utf8 "description"), (utf8 "description").
      split; [apply HeaderProofs.col_index_spec; reflexivity|]. split; [apply HeaderProofs.col_index_spec; reflexivity|]. split; [apply HeaderProofs.col_index_spec; reflexivity|].
      split; [apply HeaderProofs.first_hdr_some; reflexivity|]. left. split; apply HeaderProofs.first_hdr_some; reflexivity.
  - split; [reflexivity|]. exists en_fields. split; [|reflexivity].
    eapply dg_header; [reflexivity | eexists; split; [left; reflexivity|]; vm_compute; reflexivity | constructor | intros (a & b & E); cbn [List.concat] in E; destruct a; discriminate|].
    assert (H2 : forall r row, nth_error en_rows (S (S r)) = Some row -> ~ header_row row) by (intros r row R; eapply en_data; [exact R | discriminate]).
    apply (dg_row en_x en_rows 2 false (nth 2 en_rows []) (utf8 "1:0") (utf8 "Reserved") (utf8 "Reserved") (Some (mkSField (utf8 "RESERVED") (RInt 0 1) None)));
      [reflexivity | apply (H2 0); reflexivity | en_s | en_s | en_s | |].
    { apply xg_special_content; [apply TableProofs.special_not; vm_compute; reflexivity | apply (en_number _ _ false); vm_compute; reflexivity | left; reflexivity | vm_compute; reflexivity]. }
    apply (dg_row en_x en_rows 3 false (nth 3 en_rows []) (utf8 "2") (utf8 "Reserved") (utf8 "Reserved") (Some (mkSField (utf8 "RESERVED") (RInt 2 2) None)));
      [reflexivity | apply (H2 1); reflexivity | en_s | | | |].
    1, 2: exists (nth 3 en_rows []), 1%nat, (mkWc en_c2 1 true), en_c1; split; [reflexivity|]; split; [reflexivity|]; split; [|en_c];
      apply (sh_above en_rows 2 (nth 3 en_rows []) 1 1 (mkWc en_c2 1 true)); [reflexivity | apply TilingProofs.placed_begins0; right; left; reflexivity | cbn; lia | reflexivity|];
      apply (sh_own en_rows 2 (nth 2 en_rows []) 1 1 (mkWc en_c1 1 false)); [reflexivity | apply TilingProofs.placed_begins0; right; left; reflexivity | cbn; lia | reflexivity].
    { apply xg_special_content; [apply TableProofs.special_not; vm_compute; reflexivity | apply (en_number _ _ false); vm_compute; reflexivity | left; reflexivity | vm_compute; reflexivity]. }
    apply (dg_row en_x en_rows 4 false (nth 4 en_rows []) (utf8 "3") (utf8 "Flag Name (FLG): a <flag>") (utf8 "Flag Name (FLG): a <flag>") (Some (mkSField (utf8 "flg") (RInt 3 3) (Some (utf8 "a <flag>")))));
      [reflexivity | apply (H2 2); reflexivity | en_s | en_s | en_s | |].
    { pose proof (xg_regular en_x false (utf8 "3") (utf8 "Flag Name (FLG): a <flag>") (utf8 "Flag Name (FLG): a <flag>") (RInt 3 3) (utf8 "FLG") (utf8 "FLG") (Some (utf8 "a <flag>"))) as X.
      apply X; [apply TableProofs.special_not; vm_compute; reflexivity | apply TableProofs.special_not; vm_compute; reflexivity | apply TableProofs.special_not; vm_compute; reflexivity | apply (en_number _ _ false); vm_compute; reflexivity | | apply normal_iff; vm_compute; reflexivity | apply kept_iff; vm_compute; reflexivity].
      eapply la_acronym; [reflexivity | apply LabelProofs.struct_text_iff; vm_compute; reflexivity | discriminate]. }
    eapply (dg_note en_x en_rows 5 false _ (utf8 "Notes: none")); [reflexivity | apply (H2 3); reflexivity | right; left; cbn; lia | split; [eexists; reflexivity | en_s] | vm_compute; reflexivity].
Qed.
Lemma en_distinct : SpecTables.distinct en_doc.
Proof.
  unfold SpecTables.distinct. assert (E : exists l, map w_id (dx_body en_doc :: below (dx_body en_doc)) = l /\ NoDup l); [|destruct E as (l & -> & N); exact N].
  eexists. split; [vm_compute; reflexivity|]. repeat (apply NoDup_cons; [cbn [In]; intros X; repeat (destruct X as [X|X]; [discriminate X|]); exact X|]). constructor.
Qed.
Lemma en_spans : spans_ok en_doc.
Proof.
  intros x tc n I J G. apply spans_columns_iff in G.
  assert (F : forallb (fun x => forallb (fun tc => match tc_grid_span tc with DOk n => (0 <=? n)%Z | _ => false end) (SpecTables.table_cells x)) (w_all "w:tbl" (dx_body en_doc)) = true) by (vm_compute; reflexivity).
  rewrite forallb_forall in F. specialize (F x I). rewrite forallb_forall in F. specialize (F tc J). cbv beta in F. rewrite G in F. apply Z.leb_le. exact F.
Qed.
Definition en_us : list hunit := match parse_docx en_doc with DOk us => us | _ => [] end.
Definition en_html := html_doc (utf8 "1.0") (utf8 "spec") (utf8 "Demo Spec") (Some (utf8 "1.0")) en_us.
Definition en_file : str := html_text (fst en_html).
Lemma en_texts : (forall x t, In x (nodes (dx_body en_doc)) -> w_text x = Some t -> Forall (fun c => xml_char c /\ c <> 13%N) t)
  /\ Forall (fun h => SpecDocx.plain h /\ Forall xml_char h) [utf8 "1.0"; utf8 "spec"; utf8 "Demo Spec"; utf8 "1.0"].
Proof.
  split.
  - assert (X : forallb (fun x => match w_text x with Some t => forallb (fun c => xml_charb c && negb (c =? 13)%N) t | None => true end) (nodes (dx_body en_doc)) = true) by (vm_compute; reflexivity).
    intros x t I E. rewrite forallb_forall in X. specialize (X x I). rewrite E in X. rewrite forallb_forall in X. apply Forall_forall. intros c C. specialize (X c C).
    apply andb_true_iff in X as [X1 X2]. split; [apply xml_charb_iff; exact X1 | lia].
  - assert (X : forallb (forallb (fun c => xml_charb c && negb (c =? 34) && negb (c =? 38) && negb (c =? 60) && negb (c =? 62) && negb (c =? 9) && negb (c =? 10) && negb (c =? 13))%N)
      [utf8 "1.0"; utf8 "spec"; utf8 "Demo Spec"; utf8 "1.0"] = true) by (vm_compute; reflexivity).
    apply Forall_forall. intros h I. rewrite forallb_forall in X. specialize (X h I). rewrite forallb_forall in X.
    split; apply Forall_forall; intros c C; specialize (X c C); repeat (apply andb_true_iff in X as [X ?]); [lia | apply xml_charb_iff; exact X].
Qed.
Example C78_ex : exists root dm j m js jn, xdocument en_file root /\ r_file (parse_spec (utf8 "1.0") o_args true None (Html (Tree root))) = Some dm
  /\ json_text (file_text dm) j /\ object j [("meta", m); ("entities", JList js)] /\ In jn js
  /\ SpecStage2.says (mkEntity (mkMeta (Some (utf8 "Figure 7: Demo")) (utf8 "7") None) (BStruct KBytes en_fields)) jn.
Proof.
  destruct (read_xml en_file) as [root|] eqn:E; [|vm_compute in E; discriminate E]. assert (XD : xdocument en_file root) by (apply read_xml_iff; exact E). exists root.
  assert (PD : parse_docx en_doc = DOk en_us) by (vm_compute; reflexivity).
  assert (HD : html_doc (utf8 "1.0") (utf8 "spec") (utf8 "Demo Spec") (Some (utf8 "1.0")) en_us = (fst en_html, snd en_html)) by apply surjective_pairing.
  assert (FN : match option_map (fun r => r_end (parse_spec (utf8 "1.0") o_args true None (Html (Tree r)))) (read_xml en_file) with Some Finished => true | _ => false end = true) by (vm_compute; reflexivity).
  rewrite E in FN. cbn [option_map] in FN. destruct (r_end (parse_spec (utf8 "1.0") o_args true None (Html (Tree root)))) eqn:RE; try discriminate FN.
  destruct (C78_file en_doc en_us (utf8 "1.0") (utf8 "spec") (utf8 "Demo Spec") (utf8 "1.0") _ _ en_file root o_args true (Html (Tree root)) en_tbl en_rows (utf8 "Figure 7: Demo") en_x (BStruct KBytes en_fields)
    (proj1 en_texts) (proj2 en_texts) en_distinct en_spans PD HD (html_text_writes _) XD eq_refl Logic.I RE) as (dm & j & m & js & jn & H).
  - vm_compute. left. reflexivity.
  - intros (y & I & N). vm_compute in I. destruct I as [<-|[]]. vm_compute in N. exact N.
  - exact en_regular.
  - exact en_figure.
  - exists dm, j, m, js, jn. split; [exact XD | exact H].
Qed.
