(** C79: figures whose cells hold several paragraphs, lists and further tables, from the docx
    document to the JSON document. *)
From Coq Require Import NArith ZArith List Bool String Lia ZifyBool ZifyN ZifyNat.
From Verif Require Import GridProofs PyTables PyStr PyStrFacts Xml Json Docx Render Lint RowIter Helpers Extract Document Output
  SpecText SpecFields SpecLabel SpecHeader SpecRows SpecTable SpecDoc SpecRun SpecOutput SpecReads SpecFmt SpecDocx SpecGrid SpecHtml SpecTables SpecJson SpecStage2
  MFacts DocProofs DocRuns SpecXml XmlProofs XmlText XmlNeat TablesOnce DocxTotal Prop_Docx Prop_Doc Prop_Reads Prop_Html Prop_Tables Prop_Xml Prop_Output JsonText Prop_Json Prop_Stage2
  SpecEnd EndProofs EndRows EndFigure Prop_End SpecDeep DeepText DeepTables DeepRows DeepFigure SpecNames NameProofs CellRead.
Import ListNotations.
Local Open Scope string_scope.
Local Open Scope list_scope.

(** The text of a cell: what it says, if it holds one paragraph, else it goes on in a new line
    after the first paragraph. *)
Theorem C79_cells tc c : cell_tells tc c ->
  (forall t, cell_says tc t -> c = t)
  /\ (forall t, cell_opens tc t -> c = t \/ exists v r, c = t ++ v ++ 10%N :: r /\ blank v).
Proof.
  intros (s & TX & TR). apply HeaderProofs.trims_unique in TR as <-. split; intros t H.
  - pose proof (tells_says [] s [] tc t ltac:(constructor) ltac:(constructor) H TX) as E. cbn [app] in E. rewrite app_nil_r in E. exact E.
  - pose proof (tells_goes [] s [] tc t ltac:(constructor) ltac:(constructor) H TX) as E. cbn [app] in E. rewrite app_nil_r in E. destruct E as [E|(_ & v & r & E & B)]; [left; exact E | right; eauto].
Qed.
Print Assumptions C79_cells.

Theorem C79_figure d us version fname title rev ts c s root P es tbl rows m x g ns :
  (forall x t, In x (nodes (dx_body d)) -> w_text x = Some t -> Forall (fun c => xml_char c /\ c <> 13%N) t) ->
  Forall (fun h => SpecDocx.plain h /\ Forall xml_char h) ([version; fname; title] ++ match rev with Some r => [r] | None => [] end) ->
  SpecTables.distinct d -> spans_ok d -> parse_docx d = DOk us -> html_doc version fname title rev us = (ts, c) -> Render.writes ts s -> xdocument s root ->
  tame P -> struct_overrides P -> parse_doc P root = (Ok tt, es) ->
  In tbl (w_all "w:tbl" (dx_body d)) -> ~ in_place d tbl -> regular tbl rows -> titled rows m -> table_forms P m rows 1 x g ns ->
  (forall n, In n ns -> table_ok P (fst n) (snd n)) ->
  (exists b, forms_fit g b /\ In (EvEnt (mkEntity m b)) es)
  /\ (~ splits P (m_fig m) -> forall n m' g', In n ns -> table_part P (fst n) (snd n) m' g' -> exists b, forms_fit g' b /\ In (EvEnt (mkEntity m' b)) es).
Proof.
  intros TX PL DI SP PD HD WR XD TM SO RUN IT NP RG TI TF OK.
  destruct (C73_file d us version fname title rev ts c s TX PL PD HD WR) as (root' & _ & U & DS). specialize (U root XD). subst root'.
  destruct (C44_places _ _ _ _ _ _ _ _ _ DI SP PD DS) as (f & trees & FI & F1 & F2).
  assert (IF : In tbl (filter f (w_all "w:tbl" (dx_body d)))) by (apply filter_In; split; [exact IT | apply FI; assumption]).
  apply In_nth_error in IF as [i IF]. destruct (Forall2_at _ _ _ F1 i tbl IF) as (t & NT & TT). destruct (Forall2_at _ _ _ F2 i t NT) as (e & NE & TS).
  assert (WH : whole _ _ d tbl e) by (exists t; split; [exact TT | exact TS]). apply nth_error_In in NE.
  destruct (figure_deep _ _ d P TM SO root tbl rows e m x g ns RG WH NE TI TF OK) as (tb & ID & (b & FF & IE) & NX). split.
  - exists b. split; [exact FF|]. exact (document_part _ _ _ _ _ _ _ RUN NE ID IE).
  - intros NS n m' g' I TP. destruct (NX NS n m' g' I TP) as (b' & FF' & IE'). exists b'. split; [exact FF'|]. exact (document_part _ _ _ _ _ _ _ RUN NE ID IE').
Qed.
Print Assumptions C79_figure.

(** The file written by the program, as text. *)
Theorem C79_file d us version fname title rev ts c s root args b inp tbl rows m x g ns :
  (forall x t, In x (nodes (dx_body d)) -> w_text x = Some t -> Forall (fun c => xml_char c /\ c <> 13%N) t) ->
  Forall (fun h => SpecDocx.plain h /\ Forall xml_char h) [version; fname; title; rev] ->
  SpecTables.distinct d -> spans_ok d -> parse_docx d = DOk us -> html_doc version fname title (Some rev) us = (ts, c) -> Render.writes ts s -> xdocument s root ->
  html_of inp = Tree root -> converted inp -> r_end (parse_spec version args b None inp) = Finished ->
  In tbl (w_all "w:tbl" (dx_body d)) -> ~ in_place d tbl -> regular tbl rows -> titled rows m ->
  let P := get_parser (a_skip args) (lower title) (lower rev) in
  table_forms P m rows 1 x g ns -> (forall n, In n ns -> table_ok P (fst n) (snd n)) ->
  exists dm j mt js, r_file (parse_spec version args b None inp) = Some dm /\ json_text (file_text dm) j
    /\ object j [("meta", mt); ("entities", JList js)]
    /\ (exists bd jn, forms_fit g bd /\ In jn js /\ SpecStage2.says (mkEntity m bd) jn)
    /\ (~ splits P (m_fig m) -> forall n m' g', In n ns -> table_part P (fst n) (snd n) m' g' ->
          exists bd jn, forms_fit g' bd /\ In jn js /\ SpecStage2.says (mkEntity m' bd) jn).
Proof.
  intros TX PL DI SP PD HD WR XD HO CV FN IT NP RG TI P TF OK.
  destruct (C73_file d us version fname title (Some rev) ts c s TX PL PD HD WR) as (root' & _ & U & DS). specialize (U root XD). subst root'.
  destruct (parse_doc P root) as [r es] eqn:RUN.
  assert (KV : first_attr root "data-spec" title /\ first_attr root "data-revision" rev) .
  { destruct DS as (xh & xb & x1 & t1 & t2 & t3 & t4 & t5 & t6 & ks & -> & _ & _). split; apply first_attr_iff; eexists; reflexivity. }
  destruct KV as [K V].
  destruct (C33_written version args b inp root title rev r es HO CV K V RUN) as (dm & _ & _ & [(-> & _) | (ex & _ & F & _)]); [|congruence].
  destruct (C71_figures version args b inp root title rev _ es HO CV K V RUN) as (dm' & j & mt & js & RF & JT & OB & SY).
  destruct (C79_figure d us version fname title (Some rev) ts c s root P es tbl rows m x g ns TX PL DI SP PD HD WR XD) as [(bd & FF & IE) NX]; try assumption; [apply tame_parsers | apply struct_parsers|].
  assert (Q : forall en, In (EvEnt en) es -> exists jn, In jn js /\ SpecStage2.says en jn).
  { intros en I. apply In_ents_of in I. apply In_nth_error in I as [i I]. destruct (Forall2_at _ _ _ SY i _ I) as (jn & NJ & SJ). apply nth_error_In in NJ. eauto. }
  exists dm', j, mt, js. split; [exact RF|]. split; [exact JT|]. split; [exact OB|]. split.
  - destruct (Q _ IE) as (jn & A & B). exists bd, jn. auto.
  - intros NS n m' g' I TP. destruct (NX NS n m' g' I TP) as (b' & FF' & IE'). destruct (Q _ IE') as (jn & A & B). exists b', jn. auto.
Qed.
Print Assumptions C79_file.

(** ** A document with one figure: its rows hold paragraphs, a table of values, and a list. *)
Definition dp_par (n : N) (t : string) : welem := W n (utf8 "w:p") [] None [W (n + 1) (utf8 "w:r") [] None [W (n + 2) (utf8 "w:t") [] (Some (utf8 t)) []]].
Definition dp_item (n : N) (t : string) : welem := W n (utf8 "w:p") [] None
  [W (n + 1) (utf8 "w:pPr") [] None [W (n + 2) (utf8 "w:numPr") [] None [W (n + 3) (utf8 "w:ilvl") [(utf8 "w:val", utf8 "0")] None []; W (n + 4) (utf8 "w:numId") [(utf8 "w:val", utf8 "1")] None []]];
   W (n + 5) (utf8 "w:r") [] None [W (n + 6) (utf8 "w:t") [] (Some (utf8 t)) []]].
Definition dp_tc (n : N) (kids : list welem) : welem := W n (utf8 "w:tc") [] None (W (n + 1) (utf8 "w:tcPr") [] None [] :: kids).
Definition dp_grey (n : N) : list welem := [en_val n "w:shd" "w:fill" "D9D9D9"].
Definition dp_trs (l : list (N * list welem)) : list welem := map (fun p => W (fst p) (utf8 "w:tr") [] None (snd p)) l.

Definition dp_value := en_tc 310 (dp_grey 310) "Value".
Definition dp_vdescr := en_tc 320 (dp_grey 320) "Description".
Definition dp_v0 := en_tc 330 [] "0h".
Definition dp_off := dp_tc 340 [dp_par 350 "Off: the mode"; dp_par 355 "is off"].
Definition dp_v1 := en_tc 360 [] "1h".
Definition dp_on := en_tc 370 [] "On".
Definition dp_inner : welem := W 300 (utf8 "w:tbl") [] None (dp_trs [(301%N, [dp_value; dp_vdescr]); (302%N, [dp_v0; dp_off]); (303%N, [dp_v1; dp_on])]).
Definition dp_irows : list (list wcell) := [[mkWc dp_value 1 false; mkWc dp_vdescr 1 false]; [mkWc dp_v0 1 false; mkWc dp_off 1 false]; [mkWc dp_v1 1 false; mkWc dp_on 1 false]].

Definition dp_title := en_tc 10 [en_val 10 "w:gridSpan" "w:val" "2"] "Figure 8: Deep".
Definition dp_bytes := en_tc 20 (dp_grey 20) "Bytes".
Definition dp_descr := en_tc 30 (dp_grey 30) "Description".
Definition dp_k1 := en_tc 40 [] "0".
Definition dp_c1 := dp_tc 50 [dp_par 60 "Mode (MODE): selects the mode."; dp_par 65 "One of:"; dp_inner].
Definition dp_k2 := en_tc 80 [] "1".
Definition dp_c2 := dp_tc 90 [dp_par 100 "Steps (STP): these"; dp_item 110 "first"; dp_item 120 "second"].
Definition dp_tbl : welem := W 1 (utf8 "w:tbl") [] None (dp_trs [(2%N, [dp_title]); (3%N, [dp_bytes; dp_descr]); (4%N, [dp_k1; dp_c1]); (5%N, [dp_k2; dp_c2])]).
Definition dp_rows : list (list wcell) := [[mkWc dp_title 2 false]; [mkWc dp_bytes 1 false; mkWc dp_descr 1 false]; [mkWc dp_k1 1 false; mkWc dp_c1 1 false]; [mkWc dp_k2 1 false; mkWc dp_c2 1 false]].
Definition dp_doc : docx := mkDocx (W 400 (utf8 "w:document") [] None [W 401 (utf8 "w:body") [] None [dp_tbl]])
  (match parse_numbering Prop_List.lx_num with DOk n => Some n | _ => None end) (W 402 (utf8 "w:styles") [] None []).
Definition dp_m : meta := mkMeta (Some (utf8 "Figure 8: Deep")) (utf8 "8") None.
Definition dp_x : xctx := mkX BytesTableExtractor dp_m 0 1 1.
Definition dp_forms : forms := FStruct KBytes [mkSForm (utf8 "mode") (RInt 0 0) (Some dp_c1); mkSForm (utf8 "stp") (RInt 1 1) (Some dp_c2)].
Definition dp_im : meta := sub_meta (utf8 "8") (utf8 "0").
Definition dp_ix : xctx := mkX ValueTableExtractor dp_im 0 1 1.
Definition dp_iforms : forms := FValues [mkVForm (utf8 "0h") (utf8 "OFF") (Some dp_off); mkVForm (utf8 "1h") (utf8 "ON") (Some dp_on)].

Lemma dp_opens n p t u b : strip (utf8 t) = u -> u <> [] -> cell_opens (dp_tc n (dp_par p t :: b)) u.
Proof.
  intros T NE. eexists [_], _, b, [_], [utf8 t]. split; [reflexivity|]. split; [reflexivity|].
  split; [intros pr np [C TG]; cbn [w_kids dp_par] in C; destruct C as [<-|[]]; discriminate TG|].
  split; [constructor; [left; split; discriminate | constructor]|].
  split; [apply rn_run; [reflexivity | constructor]|].
  split; [apply rt_text; [eexists; split; [exists [], []; split; [reflexivity|]; split; [reflexivity | constructor] | reflexivity] | constructor]|].
  split; [discriminate|]. cbn [List.concat]. rewrite app_nil_r, <- T. split; [apply HeaderProofs.strip_trims|]. intros E. destruct (NE (eq_trans (eq_sym T) E)).
Qed.
Lemma dp_at rows r j row y c : nth_error rows r = Some row -> nth_error (SpecGrid.placed 0 row) j = Some (y, c) -> wc_cont c = false -> (1 <= wc_span c)%nat -> cell_at rows r j (wc_tc c).
Proof.
  intros R P C S. exists row, y, c. split; [exact R|]. split; [exact P|].
  eapply sh_own; [exact R | apply TilingProofs.placed_begins0; eapply nth_error_In; exact P | lia | exact C].
Qed.
Ltac dp_a := eapply dp_at; [reflexivity | reflexivity | reflexivity | repeat constructor].
Lemma dp_data rows h : forallb (fun p => (fst p =? h)%nat || forallb (fun q => negb (seqb (cell_tag (wc_tc (snd q))) (utf8 "th"))) (own_cells (snd p))) (combine (seq 0 (List.length rows)) rows) = true ->
  forall r row, nth_error rows r = Some row -> r <> h -> ~ header_row row.
Proof.
  intros F r row R N (p & O & T). rewrite forallb_forall in F.
  assert (I : In (r, row) (combine (seq 0 (List.length rows)) rows)).
  { clear - R. change r with (0 + r)%nat. revert R. generalize 0%nat. revert r. induction rows as [|a l IH]; intros [|r] k R; try discriminate; cbn [List.length seq combine].
    - injection R as ->. left. rewrite Nat.add_0_r. reflexivity.
    - right. rewrite <- plus_n_Sm. exact (IH r (S k) R). }
  specialize (F _ I). cbn [fst snd] in F. apply orb_prop in F as [F|F]; [apply Nat.eqb_eq in F; congruence|]. rewrite forallb_forall in F. specialize (F _ O). rewrite T in F. rewrite seqb_refl in F. discriminate.
Qed.
Lemma dp_flat tbl rows : layout tbl rows -> forallb (forallb (fun c => negb (wc_cont c))) rows = true -> forallb (fun row => match own_cells row with [] => false | _ => true end) rows = true ->
  (exists W, forallb (fun row => (list_sum (map wc_span row) =? W)%nat) rows = true /\ (W < 10)%nat) -> (List.length rows < 10)%nat -> regular tbl rows.
Proof.
  intros LY NC NE (W & WD & WS) LS.
  assert (CT : forall r x row c, nth_error rows r = Some row -> begins row x c -> wc_cont c = false).
  { intros r x row c R B. apply TilingProofs.placed_begins0 in B. rewrite forallb_forall in NC. specialize (NC row (nth_error_In _ _ R)). rewrite forallb_forall in NC.
    assert (I : In c row). { apply TilingProofs.placed_begins0 in B. destruct B as (a & b & -> & _). apply in_or_app. right. left. reflexivity. }
    specialize (NC c I). destruct (wc_cont c); [discriminate | reflexivity]. }
  split; [exact LY|]. split; [intros r row x c R B C; rewrite (CT _ _ _ _ R B) in C; discriminate|].
  split; [intros r x (row & c & R & B & C); rewrite (CT _ _ _ _ R B) in C; discriminate|].
  split; [intros row I E; rewrite forallb_forall in NE; specialize (NE row I); rewrite E in NE; discriminate|].
  exists W. split; [intros row I _; rewrite forallb_forall in WD; apply Nat.eqb_eq; exact (WD row I)|].
  split; (eapply N.lt_le_trans; [|apply (N.pow_le_mono_r 10 1); discriminate || lia]); change (10 ^ 1)%N with 10%N; lia.
Qed.
Ltac dp_lay := wlayout.
Lemma dp_regular : regular dp_tbl dp_rows.
Proof. apply dp_flat; [dp_lay | reflexivity | reflexivity | exists 2%nat; split; [reflexivity | lia] | cbn; lia]. Qed.
Lemma dp_iregular : regular dp_inner dp_irows.
Proof. apply dp_flat; [dp_lay | reflexivity | reflexivity | exists 2%nat; split; [reflexivity | lia] | cbn; lia]. Qed.

Ltac dp_h := eexists; split; [en_c|]; eexists; split; [apply HeaderProofs.clean_form|]; right; split; [intros v K; apply HeaderProofs.variant_of_iff in K; vm_compute in K; discriminate | vm_compute; reflexivity].
Ltac dp_col := apply HeaderProofs.col_index_spec; reflexivity.
Lemma dp_inner_forms : table_forms en_parser dp_im dp_irows 0 dp_ix dp_iforms [].
Proof.
  split; [reflexivity|]. split.
  - eexists _, [utf8 "value"; utf8 "description"]. split; [reflexivity|]. split; [eexists; split; [left; reflexivity|]; vm_compute; reflexivity|].
    split; [constructor; [dp_h | constructor; [dp_h | constructor]]|].
    split.
    { unfold chosen. replace (lookup_fig (p_fig_overrides en_parser) (m_fig dp_im)) with (@None ecls) by (vm_compute; reflexivity).
      right. left. split; [reflexivity|]. split; [intros [A _]; repeat (destruct A as [A|A]; [discriminate A|]); exact A|]. left. split; [left; left; reflexivity | right; left; right; left; reflexivity]. }
    exists (utf8 "value"), (utf8 "description"), (utf8 "description").
    split; [dp_col|]. split; [dp_col|]. split; [dp_col|]. split; [apply HeaderProofs.first_hdr_some; reflexivity|]. left. split; apply HeaderProofs.first_hdr_some; reflexivity.
  - split; [reflexivity|]. eapply dw_header; [reflexivity | eexists; split; [left; reflexivity|]; vm_compute; reflexivity|].
    pose proof (dp_data dp_irows 0 eq_refl) as DT.
    apply (dw_row _ dp_ix dp_irows 1 (nth 1 dp_irows []) (utf8 "0h") dp_off (mkVForm (utf8 "0h") (utf8 "OFF") (Some dp_off)) []); [reflexivity | apply (DT 1%nat); [reflexivity | discriminate] | en_s | change dp_off with (wc_tc (mkWc dp_off 1 false)); dp_a | |].
    { assert (V : value_label true (utf8 "Off: the mode") (utf8 "OFF")).
      { pose proof (vl_name true (utf8 "Off: the mode") (utf8 "Off") (utf8 "OFF")) as X. apply X; [reflexivity | vm_compute; discriminate | apply LabelProofs.value_text_split; vm_compute; reflexivity | discriminate | apply value_name_iff; vm_compute; reflexivity]. }
      apply (wv_label _ dp_ix dp_irows 1 (utf8 "0h") dp_off dp_off (utf8 "Off: the mode") (utf8 "Off: the mode") (utf8 "OFF"));
        [vm_compute; discriminate | vm_compute; tauto | change dp_off with (wc_tc (mkWc dp_off 1 false)); dp_a | apply dp_opens; [vm_compute; reflexivity | discriminate] | apply dp_opens; [vm_compute; reflexivity | discriminate] | exact V]. }
    apply (dw_row _ dp_ix dp_irows 2 (nth 2 dp_irows []) (utf8 "1h") dp_on (mkVForm (utf8 "1h") (utf8 "ON") (Some dp_on)) []); [reflexivity | apply (DT 2%nat); [reflexivity | discriminate] | en_s | change dp_on with (wc_tc (mkWc dp_on 1 false)); dp_a | | apply dw_end; reflexivity].
    assert (V : value_label true (utf8 "On") (utf8 "ON")).
    { pose proof (vl_name true (utf8 "On") (utf8 "On") (utf8 "ON")) as X. apply X; [reflexivity | vm_compute; discriminate | apply LabelProofs.value_text_split; vm_compute; reflexivity | discriminate | apply value_name_iff; vm_compute; reflexivity]. }
    apply (wv_label _ dp_ix dp_irows 2 (utf8 "1h") dp_on dp_on (utf8 "On") (utf8 "On") (utf8 "ON"));
      [vm_compute; discriminate | vm_compute; tauto | change dp_on with (wc_tc (mkWc dp_on 1 false)); dp_a | apply says_opens; en_c | apply says_opens; en_c | exact V].
Qed.
Lemma dp_figure : titled dp_rows dp_m /\ table_forms en_parser dp_m dp_rows 1 dp_x dp_forms [(dp_im, dp_inner)].
Proof.
  split; [exists (utf8 "Figure 8: Deep"), (utf8 "8"); split; [split; [eexists; reflexivity | en_s]|]; split; [apply figure_id_iff; vm_compute; reflexivity | reflexivity]|].
  split; [reflexivity|]. split.
  - eexists _, [utf8 "bytes"; utf8 "description"]. split; [reflexivity|]. split; [eexists; split; [left; reflexivity|]; vm_compute; reflexivity|].
    split; [constructor; [dp_h | constructor; [dp_h | constructor]]|].
    split.
    { unfold chosen. replace (lookup_fig (p_fig_overrides en_parser) (m_fig dp_m)) with (@None ecls) by (vm_compute; reflexivity).
      left. split; [reflexivity|]. split; [left; reflexivity | right; left; reflexivity]. }
    exists (utf8 "bytes"), (utf8 "description"), (utf8 "description").
    split; [dp_col|]. split; [dp_col|]. split; [dp_col|]. split; [apply HeaderProofs.first_hdr_some; reflexivity|]. left. split; apply HeaderProofs.first_hdr_some; reflexivity.
  - split; [reflexivity|]. eexists. split; [|reflexivity].
    pose proof (dp_data dp_rows 1 eq_refl) as DT.
    eapply df_header; [reflexivity | eexists; split; [left; reflexivity|]; vm_compute; reflexivity | constructor | intros (a & b & E); cbn [List.concat] in E; destruct a; discriminate|].
    apply (df_row dp_x dp_rows 2 false (nth 2 dp_rows []) (utf8 "0") dp_c1 (utf8 "Mode (MODE): selects the mode.") dp_c1 (Some (mkSForm (utf8 "mode") (RInt 0 0) (Some dp_c1))) [(dp_im, dp_inner)] [mkSForm (utf8 "stp") (RInt 1 1) (Some dp_c2)] []);
      [reflexivity | apply (DT 2%nat); [reflexivity | discriminate] | en_s | change dp_c1 with (wc_tc (mkWc dp_c1 1 false)); dp_a | apply dp_opens; [vm_compute; reflexivity | discriminate] | change dp_c1 with (wc_tc (mkWc dp_c1 1 false)); dp_a | |].
    { pose proof (wf_regular dp_x false (utf8 "0") (utf8 "Mode (MODE): selects the mode.") dp_c1 (utf8 "Mode (MODE): selects the mode.") (RInt 0 0) (utf8 "MODE") (utf8 "MODE")) as X.
      apply X; [apply dp_opens; [vm_compute; reflexivity | discriminate] | apply TableProofs.special_not; vm_compute; reflexivity | apply TableProofs.special_not; vm_compute; reflexivity | apply TableProofs.special_not; vm_compute; reflexivity | apply (en_number _ _ false); vm_compute; reflexivity | | apply normal_iff; vm_compute; reflexivity].
      eapply la_acronym; [reflexivity | apply LabelProofs.struct_text_iff; vm_compute; reflexivity | discriminate]. }
    apply (df_row dp_x dp_rows 3 false (nth 3 dp_rows []) (utf8 "1") dp_c2 (utf8 "Steps (STP): these") dp_c2 (Some (mkSForm (utf8 "stp") (RInt 1 1) (Some dp_c2))) [] [] []);
      [reflexivity | apply (DT 3%nat); [reflexivity | discriminate] | en_s | change dp_c2 with (wc_tc (mkWc dp_c2 1 false)); dp_a | apply dp_opens; [vm_compute; reflexivity | discriminate] | change dp_c2 with (wc_tc (mkWc dp_c2 1 false)); dp_a | | apply df_end; reflexivity].
    pose proof (wf_regular dp_x false (utf8 "1") (utf8 "Steps (STP): these") dp_c2 (utf8 "Steps (STP): these") (RInt 1 1) (utf8 "STP") (utf8 "STP")) as X.
    apply X; [apply dp_opens; [vm_compute; reflexivity | discriminate] | apply TableProofs.special_not; vm_compute; reflexivity | apply TableProofs.special_not; vm_compute; reflexivity | apply TableProofs.special_not; vm_compute; reflexivity | apply (en_number _ _ false); vm_compute; reflexivity | | apply normal_iff; vm_compute; reflexivity].
    eapply la_acronym; [reflexivity | apply LabelProofs.struct_text_iff; vm_compute; reflexivity | discriminate].
Qed.
Lemma dp_ok n : In n [(dp_im, dp_inner)] -> table_ok en_parser (fst n) (snd n).
Proof. intros [<-|[]]. eapply tk_table; [exact dp_iregular | exact dp_inner_forms | intros n []]. Qed.
Fixpoint dp_once (l : list N) : bool := match l with [] => true | a :: l => negb (existsb (N.eqb a) l) && dp_once l end.
Lemma dp_nodup l : dp_once l = true -> NoDup l.
Proof.
  induction l as [|a l IH]; intros H; constructor; cbn [dp_once] in H; apply andb_true_iff in H as [A B]; [|exact (IH B)].
  intros I. apply Bool.negb_true_iff in A. apply Bool.not_true_iff_false in A. apply A. apply existsb_exists. exists a. split; [exact I | apply N.eqb_refl].
Qed.
Lemma dp_distinct : SpecTables.distinct dp_doc.
Proof. apply dp_nodup. vm_compute. reflexivity. Qed.
Lemma dp_spans : spans_ok dp_doc.
Proof.
  intros x tc n I J G. apply spans_columns_iff in G.
  assert (F : forallb (fun x => forallb (fun tc => match tc_grid_span tc with DOk n => (0 <=? n)%Z | _ => false end) (SpecTables.table_cells x)) (w_all "w:tbl" (dx_body dp_doc)) = true) by (vm_compute; reflexivity).
  rewrite forallb_forall in F. specialize (F x I). rewrite forallb_forall in F. specialize (F tc J). cbv beta in F. rewrite G in F. apply Z.leb_le. exact F.
Qed.
Definition dp_us : list hunit := match parse_docx dp_doc with DOk us => us | _ => [] end.
Definition dp_html := html_doc (utf8 "1.0") (utf8 "spec") (utf8 "Demo Spec") (Some (utf8 "1.0")) dp_us.
Definition dp_file : str := html_text (fst dp_html).
Lemma dp_texts : forall x t, In x (nodes (dx_body dp_doc)) -> w_text x = Some t -> Forall (fun c => xml_char c /\ c <> 13%N) t.
Proof.
  assert (X : forallb (fun x => match w_text x with Some t => forallb (fun c => xml_charb c && negb (c =? 13)%N) t | None => true end) (nodes (dx_body dp_doc)) = true) by (vm_compute; reflexivity).
  intros x t I E. rewrite forallb_forall in X. specialize (X x I). rewrite E in X. rewrite forallb_forall in X. apply Forall_forall. intros c C. specialize (X c C).
  apply andb_true_iff in X as [X1 X2]. split; [apply xml_charb_iff; exact X1 | lia].
Qed.
Example C79_ex : exists root dm j mt js bd jn bd' jn', xdocument dp_file root
  /\ r_file (parse_spec (utf8 "1.0") o_args true None (Html (Tree root))) = Some dm
  /\ json_text (file_text dm) j /\ object j [("meta", mt); ("entities", JList js)]
  /\ forms_fit dp_forms bd /\ In jn js /\ SpecStage2.says (mkEntity dp_m bd) jn
  /\ forms_fit dp_iforms bd' /\ In jn' js /\ SpecStage2.says (mkEntity dp_im bd') jn'.
Proof.
  destruct (read_xml dp_file) as [root|] eqn:E; [|vm_compute in E; discriminate E]. assert (XD : xdocument dp_file root) by (apply read_xml_iff; exact E). exists root.
  assert (PD : parse_docx dp_doc = DOk dp_us) by (vm_compute; reflexivity).
  assert (HD : html_doc (utf8 "1.0") (utf8 "spec") (utf8 "Demo Spec") (Some (utf8 "1.0")) dp_us = (fst dp_html, snd dp_html)) by apply surjective_pairing.
  assert (FN : match option_map (fun r => r_end (parse_spec (utf8 "1.0") o_args true None (Html (Tree r)))) (read_xml dp_file) with Some Finished => true | _ => false end = true) by (vm_compute; reflexivity).
  rewrite E in FN. cbn [option_map] in FN. destruct (r_end (parse_spec (utf8 "1.0") o_args true None (Html (Tree root)))) eqn:RE; try discriminate FN.
  destruct (C79_file dp_doc dp_us (utf8 "1.0") (utf8 "spec") (utf8 "Demo Spec") (utf8 "1.0") _ _ dp_file root o_args true (Html (Tree root)) dp_tbl dp_rows dp_m dp_x dp_forms [(dp_im, dp_inner)]
    dp_texts (proj2 en_texts) dp_distinct dp_spans PD HD (html_text_writes _) XD eq_refl Logic.I RE) as (dm & j & mt & js & RF & JT & OB & (bd & jn & H1 & H2 & H3) & NX).
  - vm_compute. left. reflexivity.
  - intros (y & I & N). assert (F : forallb (fun y => forallb (fun z => negb (w_id z =? 1)%N) (nested_tables y)) (w_all "w:tbl" (dx_body dp_doc)) = true) by (vm_compute; reflexivity).
    rewrite forallb_forall in F. specialize (F y I). rewrite forallb_forall in F. specialize (F _ N). discriminate F.
  - exact dp_regular.
  - exact (proj1 dp_figure).
  - exact (proj2 dp_figure).
  - exact dp_ok.
  - destruct (NX ltac:(intros (c & pf & f' & L & _); vm_compute in L; discriminate L) (dp_im, dp_inner) dp_im dp_iforms (or_introl eq_refl)) as (bd' & jn' & H4 & H5 & H6).
    { eapply tp_here; [exact dp_iregular | exact dp_inner_forms]. }
    exists dm, j, mt, js, bd, jn, bd', jn'. auto 12.
Qed.
