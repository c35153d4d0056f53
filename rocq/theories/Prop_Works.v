(** Property C85: a run of the program always ends, and succeeds on inputs that can be processed. *)
From Coq Require Import NArith ZArith List Bool String Lia.
From Verif Require Import PyStr PyStrFacts Xml Json JsonText Lint Extract Document Output Schema Cli Docx Render Css Disk.
From Verif Require Import SpecText SpecFmt SpecQuery SpecGrid SpecList SpecRun SpecHtml SpecDocx SpecXml SpecCli SpecOutput SpecStage1 SpecStage2 SpecJson SpecDoc SpecOut SpecDisk.
From Verif Require Import XmlProofs DocxFlow JsonProofs Prop_Fmt Prop_Cli Prop_Json Prop_Output Prop_Schema Prop_Docx Prop_Xml Prop_Css Prop_CssEx Prop_Doc Prop_Reads  Prop_Out Prop_Stage1 Stage1Proofs QueryProofs DiskProofs DiskJson Prop_Disk.
Import ListNotations.
Local Open Scope string_scope.
Local Open Scope list_scope.
Local Open Scope N_scope.

(** ** Opening a docx file *)

(** If the parts are there and all styles have ids, the document can be opened. *)
Lemma opens p d t r : holds_document p d t r -> styles_have_ids "paragraph" (dx_styles d) -> styles_have_ids "character" (dx_styles d) ->
  exists h, open_docx p = DOk (d, h) /\ header_title h = t /\ header_revision h = r.
Proof.
  intros HD SP SC. assert (exists h, open_docx p = DOk (d, h)) as (h & OP).
  { destruct HD as (hd & h & B & Y & H & N & _). unfold open_docx, extract. rewrite B, H, Y. cbn [dbind].
    replace (match (dlet e <- match pk_numbering p with Some e => DOk e | None => DErr DKey end; parse_numbering e) with DOk n => DOk (Some n) | DErr DKey => DOk None | DErr e => DErr e | DFuel => DFuel end)
      with (DOk (dx_num d)).
    2: { destruct (pk_numbering p) as [e|]; cbn [dbind]; [destruct N as (n & -> & ->) | rewrite N]; reflexivity. }
    cbn [dbind]. unfold styles_ok. apply alias_dct_ids in SP as (a & ->). apply alias_dct_ids in SC as (b & ->). cbn [dbind].
    exists (header_text hd). destruct d as [bd nm sy]. reflexivity. }
  exists h. split; [exact OP|]. destruct (C83_one _ _ _ _ _ _ _ HD (open_holds _ _ _ OP)) as (_ & -> & ->). auto.
Qed.

(** ** Tables with rows *)
Inductive tall : hunit -> Prop :=
| tall_par sps : tall (HPar sps)
| tall_list l its : tall (HList l its)
| tall_table wid id rows : rows <> [] -> Forall (Forall (fun t => Forall tall (tc_elems t))) rows -> tall (HTable wid id rows).
(** Every table of the docx document has a row. *)
Definition tables_have_rows (d : docx) : Prop :=
  forall t, In t (below (dx_body d)) -> w_tag t = utf8 "w:tbl" -> exists r, In r (w_kids t) /\ w_tag r = utf8 "w:tr".

Scheme cm_i := Minimality for contents_mean Sort Prop with tm_i := Minimality for table_means Sort Prop
  with rm_i := Minimality for rows_mean Sort Prop with cs_i := Minimality for cells_mean Sort Prop.
Combined Scheme means_ind from cm_i, tm_i, rm_i, cs_i.

Section Tall.
Variable d : docx.
Hypothesis ROWS : tables_have_rows d.
Let B := below (dx_body d).
Lemma items_rest a i st its st' : list_items d a i st its st' -> incl st' st.
Proof.
  induction 1 as [i st E|i p st sps its st' L P _ IH|i j p st l sub st1 its st2 L J V _ IH1 _ IH2]; [apply incl_refl | apply incl_tl; exact IH|].
  intros x I. apply IH1, IH2. exact I.
Qed.
Lemma from_cell_in rows r x r0 x0 c : from_cell rows r x r0 x0 c -> exists row, In row rows /\ In c row.
Proof.
  induction 1 as [r row x y c E (A & C & -> & _) _ _|]; [|assumption]. exists (A ++ c :: C). split; [exact (nth_error_In _ _ E) | apply in_elt].
Qed.
Lemma layout_in t rows row c : layout t rows -> In row rows -> In c row -> exists tr, In tr (w_kids t) /\ In (wc_tc c) (w_kids tr).
Proof.
  unfold layout. intros L IR IC. assert (G : exists tr, In tr (w_children "w:tr" t) /\ Forall2 is_wcell (w_children "w:tc" tr) row).
  { clear IC. induction L as [|tr cs trs css F L IH]; [destruct IR|]. destruct IR as [->|IR]; [exists tr; split; [left; reflexivity | exact F]|].
    destruct (IH IR) as (tr' & I & F'). exists tr'. split; [right; exact I | exact F']. }
  destruct G as (tr & I & F). exists tr. split; [apply filter_In in I; apply I|]. clear I IR L.
  assert (I : In (wc_tc c) (w_children "w:tc" tr)).
  { induction F as [|tc c' tcs cs (E & _) F IH]; [destruct IC|]. destruct IC as [->|IC]; [left; symmetry; exact E | right; apply IH; exact IC]. }
  apply filter_In in I. apply I.
Qed.
Definition cells_in (rows : list (list wcell)) : Prop := forall row c, In row rows -> In c row -> incl (w_kids (wc_tc c)) B.
Lemma means_tall :
  (forall st s us s', contents_mean d st s us s' -> incl st B -> Forall tall us)
  /\ (forall t s u s', table_means d t s u s' -> In t B -> w_tag t = utf8 "w:tbl" -> tall u)
  /\ (forall rows r s cells s', rows_mean d rows r s cells s' -> cells_in rows ->
        (r < List.length rows -> cells <> [])%nat /\ Forall (Forall (fun t => Forall tall (tc_elems t))) cells)
  /\ (forall rows r w x s ts s', cells_mean d rows r w x s ts s' -> cells_in rows -> Forall (fun t => Forall tall (tc_elems t)) ts).
Proof.
  apply (means_ind d).
  - constructor.
  - intros e st s us s' _ _ _ IH I. apply IH. intros x X. apply I. right. exact X.
  - intros t st s us s' _ _ _ IH I. apply IH. intros x X. apply I. right. exact X.
  - intros t st s u s1 us s2 T _ IH1 _ IH2 I. constructor; [apply IH1; [apply I; left; reflexivity | exact T]|]. apply IH2. intros x X. apply I. right. exact X.
  - intros p st a i l its st' s us s' _ _ LI _ IH I. constructor; [constructor|]. apply IH. intros x X. apply I. exact (items_rest _ _ _ _ _ LI x X).
  - intros p st sps s us s' _ _ _ _ _ IH I. constructor; [constructor|]. apply IH. intros x X. apply I. right. exact X.
  - intros p st s us s' _ _ _ _ IH I. apply IH. intros x X. apply I. right. exact X.
  - intros t s rows cells id s' _ L _ _ IH _ I T.
    assert (CI : cells_in rows).
    { intros row c IR IC x X. destruct (layout_in _ _ _ _ L IR IC) as (tr & I1 & I2). eapply below_kid; [|exact X]. eapply below_kid; [|exact I2]. eapply below_kid; [exact I | exact I1]. }
    destruct (IH CI) as [NE F]. constructor; [|exact F]. apply NE. destruct (ROWS t I T) as (tr & I1 & T1).
    assert (E : List.length (w_children "w:tr" t) = List.length rows) by (clear - L; unfold layout in L; induction L; cbn [List.length]; congruence). rewrite <- E. assert (In tr (w_children "w:tr" t)) as X by (apply filter_In; split; [exact I1 | apply is_tag_iff; exact T1]).
    destruct (w_children "w:tr" t); [destruct X | cbn [List.length]; lia].
  - intros rows r s N _. split; [intros H; apply nth_error_None in N; lia | constructor].
  - intros rows r row s ts s1 tss s2 _ _ IH1 _ IH2 CI. split; [discriminate|]. constructor; [apply IH1; exact CI | apply IH2; exact CI].
  - constructor.
  - intros rows r w x r0 x0 c n tag fill us s s1 ts s2 _ FC _ _ _ _ IH1 _ IH2 CI. constructor; [|apply IH2; exact CI]. cbn [tc_elems]. apply IH1.
    destruct (from_cell_in _ _ _ _ _ _ FC) as (row & IR & IC). exact (CI row c IR IC).
Qed.
Lemma tables_tall ts s us s' : tables_mean d ts s us s' -> incl ts (filter (is_tag "w:tbl") B) -> Forall tall us.
Proof.
  induction 1 as [s|t ts s us s' _ _ IH|t ts s u s1 us s2 T _ IH]; intros I; [constructor | apply IH; intros x X; apply I; right; exact X|].
  constructor; [|apply IH; intros x X; apply I; right; exact X].
  pose proof (I t (or_introl eq_refl)) as X. apply filter_In in X as [X Y]. apply is_tag_iff in Y. exact (proj1 (proj2 means_tall) _ _ _ _ T X Y).
Qed.
Lemma document_tall us : document_means d us -> Forall tall us.
Proof. intros (s & T). exact (tables_tall _ _ _ _ T (incl_refl _)). Qed.
End Tall.

Section Shown.
Variables (txt cell : list (str * list (str * str))).
Lemma rows_kids y rows ks : rows_show txt cell y rows ks -> rows <> [] -> map fst (filter (fun k => seqb (e_tag (fst k)) t_tr) ks) <> [].
Proof. intros H N. inversion H; subst; [congruence|]. discriminate. Qed.
Lemma rows_units y rows ks : rows_show txt cell y rows ks -> Forall (Forall (fun t => Forall tall (tc_elems t))) rows ->
  forall tr tl, In (tr, tl) ks -> forall td tl', In (td, tl') (e_kids tr) -> exists us, Forall tall us /\ units_show txt cell us (e_kids td).
Proof.
  intros H. induction ks as [|k ks IH] in y, rows, H |- *; intros F tr tl I; [destruct I|].
  inversion H as [|y0 row rows0 x ks0 tail rest B1 B2 C R]; subst. inversion F as [|? ? F1 F2]; subst.
  destruct I as [[= <- <-]|I]; [|exact (IH _ _ R F2 tr tl I)]. cbn [e_kids]. intros td tl' I.
  clear - C F1 I. revert C F1 I. generalize 0%Z. intros x C. induction C as [|y x t ts ks O _ IH|y x t ts a ks tail rest O A U T _ IH]; intros F I; [destruct I | |]; inversion F; subst; auto.
  destruct I as [[= <- <-]|I]; [|auto]. exists (tc_elems t). auto.
Qed.
Lemma tall_children u e : tall u -> shows txt cell u e -> e_tag e = t_table -> children t_tr e <> [].
Proof.
  intros T S E. inversion S as [sps x ks B F|l its e' L|wid id rows x ks B R]; subst; [discriminate E | |].
  - inversion L; subst. cbn [e_tag] in E. unfold lvl_tag in E. destruct (is_ordered l); discriminate E.
  - inversion T; subst. exact (rows_kids _ _ _ R ltac:(assumption)).
Qed.
Lemma tall_rows u e : tall u -> shows txt cell u e -> e_tag e = t_table -> ~ rowless e.
Proof.
  intros T S E (v & [W|[-> _]] & N); [|exact (tall_children u e T S E N)].
  destruct W as (tr & trs & td & tds & tl & ks & C1 & C2 & K & EV).
  inversion S as [sps x ks' B F|l its e' L|wid id rows x ks' B R]; subst; [discriminate E | inversion L; subst; cbn [e_tag] in E; unfold lvl_tag in E; destruct (is_ordered l); discriminate E|].
  inversion T as [| |? ? ? NE F]; subst.
  assert (I1 : exists t1, In (tr, t1) ks').
  { assert (I : In tr (tr :: trs)) by (left; reflexivity). rewrite <- C1 in I.
    apply in_map_iff in I as ([k t1] & <- & I). apply filter_In in I as [I _]. exists t1. exact I. }
  assert (I2 : exists t2, In (td, t2) (e_kids tr)).
  { assert (I : In td (children t_td tr)) by (rewrite C2; left; reflexivity). apply in_map_iff in I as ([k t2] & <- & I). apply filter_In in I as [I _]. exists t2. exact I. }
  destruct I1 as [t1 I1], I2 as [t2 I2]. destruct (rows_units _ _ _ R F tr t1 I1 td t2 I2) as (us & FU & U). rewrite K in U. inversion U as [|u1 us1 e1 tail1 ks1 S1 _ _]; subst. inversion FU; subst.
  exact (tall_children u1 v ltac:(assumption) S1 EV N).
Qed.
Lemma units_in us ks : units_show txt cell us ks -> Forall tall us -> forall e tl, In (e, tl) ks -> exists u, tall u /\ shows txt cell u e.
Proof.
  intros H. induction ks as [|k ks IH] in us, H |- *; intros F e tl I; [destruct I|]. inversion H as [|u us0 e0 tail ks0 S _ U]; subst. inversion F; subst.
  destruct I as [[= <- <-]|I]; [eauto | exact (IH _ U ltac:(assumption) e tl I)].
Qed.
End Shown.
(** With --skip-figure-on-error and for a specification with no extractors of its own, the JSON
    stage comes to the end of each document whose tables have rows. *)
Definition no_quirks (title rev : str) : Prop := forall q, In q QUIRKS_MAP -> fst q <> (lower title, lower rev).
Lemma shown_works txt cell version stem title rev us root :
  Forall tall us -> no_quirks title rev -> document_shows txt cell version stem title (Some rev) us root -> exists es, comes_to_end true root es.
Proof.
  intros T NQ (xh & xb & x1 & t1 & t2 & t3 & t4 & t5 & t6 & ks & -> & _ & U).
  match goal with |- exists es, comes_to_end true ?r es => set (root := r) end.
  assert (GP : get_parser true (lower title) (lower rev) = mkParser true [] []).
  { unfold get_parser. destruct (find _ QUIRKS_MAP) as [[kr [lo fo]]|] eqn:F; [|reflexivity]. exfalso. apply find_some in F as [I E]. cbn [fst snd] in E.
    apply andb_true_iff in E as [E1 E2]. apply seqb_eq in E1, E2. apply (NQ _ I). destruct kr. cbn [fst snd] in *. congruence. }
  assert (FG : forall t, In t (figures root) -> exists tl, In (t, tl) ks /\ e_tag t = t_table).
  { intros t I. pose proof (in_tag root t I) as E. unfold figures, root in I.
    match type of I with In _ (flat_map _ (children t_body ?r)) => assert (C : children t_body r = [Elem (utf8 "body") [] xb ks]) by reflexivity; rewrite C in I end.
    cbn [flat_map] in I. rewrite app_nil_r in I. apply in_map_iff in I as ([k tl] & <- & I). apply filter_In in I as [I _]. exists tl. split; [exact I | exact E]. }
  destruct (C24_finishes (get_parser true (lower title) (lower rev)) root) as (es & E).
  - apply tame_parsers.
  - rewrite GP. reflexivity.
  - intros t I. destruct (FG t I) as (tl & I' & E). destruct (units_in _ _ _ _ U T t tl I') as (u & TU & S). exact (tall_rows _ _ u t TU S E).
  - intros t m tbl _ _. rewrite GP. reflexivity.
  - exists es. assert (K : first_attr root "data-spec" title /\ first_attr root "data-revision" rev).
    { split; apply first_attr_iff; eexists; reflexivity. }
    exists title, rev. split; [apply K|]. split; [apply K|]. apply C80_document; [apply tame_parsers | apply struct_parsers|]. exists (Ok tt). auto.
Qed.

Section Run.
Variable version : str.
Variable read : str -> source.
Local Notation convert := (Disk.convert version).
Local Notation process := (Disk.process version read).
Local Notation loop := (Disk.loop version read).
Local Notation runs := (Disk.runs version read).

(** ** Every command line and disk has a run *)
Lemma convert_total out stem c : exists w b, convert out stem c w b.
Proof.
  destruct c as [[s|p|]|]; [exists [], true; constructor; exact Logic.I | | exists [], true; constructor; exact Logic.I | exists [], true; constructor; exact Logic.I].
  destruct (open_docx p) as [[d h]|e|] eqn:OP.
  - destruct (parse_docx d) as [us|e|] eqn:PD.
    + destruct (html_doc version stem (header_title h) (header_revision h) us) as [ts c] eqn:HD.
      eexists. exists false. eapply cv_done; eauto; [apply html_text_writes | apply unindented_written].
    + exists [], true. eapply cv_lost; [exact OP|]. rewrite PD. exact Logic.I.
    + exists [], true. eapply cv_lost; [exact OP|]. rewrite PD. exact Logic.I.
  - exists [], true. apply cv_not_open. rewrite OP. exact Logic.I.
  - exists [], true. apply cv_not_open. rewrite OP. exact Logic.I.
Qed.
Lemma file_there args inp : converted inp -> exists m, r_file (parse_spec version args false None inp) = Some m.
Proof.
  unfold parse_spec. destruct inp as [s|total is raised s]; cbn [converted].
  - intros _. destruct (json_stage version args false None s) as [[rs m] e]. cbn [r_file]. eauto.
  - intros ->. destruct (json_stage version args false None s) as [[rs m] e]. cbn [r_file]. eauto.
Qed.
Lemma process_total args out d p : exists w m e, process args out d p w m e.
Proof.
  destruct p as [dir name]. destruct (seqb (path_suffix name) (utf8 ".docx")) eqn:S.
  - apply seqb_eq in S. destruct (convert_total out (drop_suffix name) (d (dir, name))) as (w & [|] & C); [exists w, None, (Failed PConvert); apply pr_raised; assumption|].
    destruct (file_there args (Docx 0 [] false (source_of read (disk_after (w ++ [((out, json_name (html_name name)), [])]) d (out, html_name name)))) eq_refl) as (m & F).
    eexists _, _, _. eapply pr_docx; eauto.
  - apply seqb_neq in S. destruct (file_there args (Html (source_of read (disk_after [((out, json_name name), [])] d (dir, name)))) Logic.I) as (m & F).
    eexists _, _, _. eapply pr_html; eauto.
Qed.
Lemma loop_total args validate out : forall ins d, exists w st, loop args validate out d ins w st.
Proof.
  induction ins as [|p ins IH]; intros d; [exists [], 0; constructor|].
  destruct (smem (path_suffix (snd p)) [utf8 ".html"; utf8 ".docx"]) eqn:M.
  - apply smem_In in M. destruct (process_total args out d p) as (w & m & e & P). destruct (well validate m e) eqn:W.
    + destruct (IH (disk_after w d)) as (w' & st & L). eexists _, _. eapply lp_next; eauto.
    + eexists _, _. eapply lp_fails; eauto.
  - exists [], 1. apply lp_name. intros I. apply smem_In in I. congruence.
Qed.
Theorem C85_total k d : exists w st, runs k d w st /\ (st = 0 \/ st = 1 \/ st = 2).
Proof.
  assert (exists w st, runs k d w st) as (w & st & R).
  { unfold Disk.runs. destruct (forallb (found d) (k_inputs k)); [|eauto]. destruct (match k_ignore k with Some t => arg_lintcode t | None => Some [] end); [|eauto].
    destruct (k_inputs k) as [|p ins]; [eauto|]. apply loop_total. }
  exists w, st. split; [exact R|]. unfold Disk.runs in R. destruct (forallb (found d) (k_inputs k)); [|destruct R as [_ ->]; auto].
  destruct (match k_ignore k with Some t => arg_lintcode t | None => Some [] end); [|destruct R as [_ ->]; auto]. destruct (k_inputs k) as [|p ins]; [destruct R as [_ ->]; auto|].
  destruct (loop_split _ _ _ _ _ _ _ _ _ R) as (_ & _ & _ & _ & _ & _ & _ & ST & _). tauto.
Qed.

(** ** Success *)

(** The HTML tree can be processed; and the result conforms to the schema (C36) if that is
    checked. *)
Definition html_works (skip validate : bool) (root : elem) : Prop :=
  exists es, comes_to_end skip root es /\ (validate = true -> forall e, In (EvEnt e) es -> ~ outside_schema e).
(** The docx file can be opened, has a revision, its texts and colours can be written, its tables
    mean something, and each HTML tree that shows that can be processed. *)
Definition docx_works (skip validate : bool) (stem : str) (pk : package) : Prop :=
  exists doc title rev us,
    holds_document pk doc title rev /\ styles_have_ids "paragraph" (dx_styles doc) /\ styles_have_ids "character" (dx_styles doc)
    /\ usual doc version stem title rev /\ regular_tables doc /\ document_means doc us
    /\ forall txt cell root, document_shows txt cell version stem title rev us root -> html_works skip validate root.
(** The input is a file that can be processed, and not the HTML file of a docx input. *)
Definition input_works (k : command) (d : disk) (p : path) : Prop :=
  exists stem,
    (html_file p stem /\ ~ overlap (k_out k) (k_inputs k) p
     /\ exists s root, d p = Some (Text s) /\ xdocument s root /\ html_works (k_skip k) (k_validate k) root)
    \/ (docx_file p stem /\ exists pk, d p = Some (Package pk) /\ docx_works (k_skip k) (k_validate k) stem pk).

Lemma source_works args validate inp root m : html_of inp = Tree root -> converted inp -> html_works (a_skip args) validate root ->
  r_file (parse_spec version args false None inp) = Some m -> well validate (Some m) (r_end (parse_spec version args false None inp)) = true.
Proof.
  intros HS CV (es & (k & v & K & V & DO) & OS) F.
  destruct (C80_file version args false inp root k v true es HS CV K V DO) as (_ & _ & _ & _ & _ & _ & _ & _ & FIN & _). rewrite FIN. cbn [well].
  destruct validate; [|reflexivity].
  apply C80_document in DO as (r & E & ->); [|apply tame_parsers | apply struct_parsers].
  destruct (C36_schema version args false inp root k v es HS CV K V E) as (dm & F' & IFF). assert (m = dm) as -> by congruence. rewrite (proj2 IFF (OS eq_refl)). reflexivity.
Qed.
Lemma tables_raise d : forall a t b s us s', parse_tables d a s = DOk (us, s') ->
  match parse_table (parse_any d (any_fuel (w_kids t))) t s' with DOk _ => False | _ => True end ->
  forall x, parse_tables d (a ++ t :: b) s <> DOk x.
Proof.
  induction a as [|y a IH]; intros t b s us s' E N x; cbn [app parse_tables] in *.
  - injection E as <- <-. destruct (parse_table (parse_any d (any_fuel (w_kids t))) t s) as [[u s1]|e|]; [contradiction | discriminate | discriminate].
  - destruct (parse_table (parse_any d (any_fuel (w_kids y))) y s) as [[u s1]|e|]; cbn [dbind] in *; try discriminate.
    destruct (parse_tables d a s1) as [[us1 s2]|e|] eqn:E1; cbn [dbind] in E; try discriminate. injection E as _ <-.
    specialize (IH t b s1 us1 s2 E1 N). destruct (parse_tables d (a ++ t :: b) s1) as [q|e|]; [exfalso; exact (IH q eq_refl) | discriminate | discriminate].
Qed.
Lemma process_works args validate out d p stem w m e :
  reads_xml read -> process args out d p w m e ->
  (html_file p stem /\ exists s root, d p = Some (Text s) /\ xdocument s root /\ html_works (a_skip args) validate root)
  \/ (docx_file p stem /\ exists pk, d p = Some (Package pk) /\ docx_works (a_skip args) validate stem pk) ->
  well validate m e = true.
Proof.
  intros RX P [(N & s & root & D & XD & HW)|(N & pk & D & DW)].
  - inversion P as [dir name r m' NS E F EP EW EM EN|dir name w' S C|dir name w' r m' S C E F EP EW EM EN]; subst; try (exfalso; exact (not_docx (dir, name) stem N S)).
    eapply source_works; [|exact Logic.I|exact HW|exact F]. cbn [html_of].
    pose proof (json_name_of (dir, name) stem N) as JN. cbn [snd] in JN. rewrite JN.
    rewrite dafter_other; [rewrite D; cbn [source_of]; apply RX; exact XD|].
    cbn [map fst In]. intros [X|[]]. assert (NE : stem <> []) by apply N. assert (J : named (stem ++ utf8 ".json") stem (utf8 "json")) by ext.
    unfold html_file in N. cbn [snd] in N. apply (f_equal snd) in X. cbn [snd] in X. rewrite <- X in N. destruct (named_unique _ _ _ _ _ N J) as [_ ?]. discriminate.
  - destruct DW as (doc & title & rev & us & HD & SP & SC & U & RT & DM & AND). destruct (opens _ _ _ _ HD SP SC) as (h & OP & ET & ER).
    assert (PD : parse_docx doc = DOk us) by (apply (C81_document doc us RT); exact DM).
    inversion P as [dir name r m' NS E F EP EW EM EN|dir name w' S C|dir name w' r m' S C E F EP EW EM EN]; subst.
    + exfalso. apply NS. apply suffix_docx. exists stem. exact N.
    + exfalso. rewrite D in C. inversion C as [c X|p X|p d0 h0 O X|p d0 h0 a t b us0 s ts c html css O WA PT NT|]; subst.
      * exact X.
      * rewrite OP in X. exact X.
      * rewrite OP in O. injection O as <- <-. rewrite PD in X. exact X.
      * rewrite OP in O. injection O as <- <-. unfold parse_docx in PD. rewrite WA in PD. pose proof (tables_raise doc a t b [] us0 s PT NT) as NO.
        destruct (parse_tables doc (a ++ t :: b) []) as [q|?|]; [exact (NO q eq_refl) | discriminate | discriminate].
    + destruct (html_name_of (dir, name) stem N) as [HN JN]. cbn [snd] in HN, JN. rewrite (drop_named name stem _ N) in C. rewrite D in C.
      inversion C as [| | | |p d0 h0 us0 ts c html css O PD' HDOC W L X1 X2]; subst. rewrite OP in O. injection O as <- <-.
      assert (us0 = us) as -> by congruence. destruct U as (UT & UH & UC).
      destruct (C73_file doc us version stem (header_title h) (header_revision h) ts c html) as (root & XD & _ & DS); auto.
      { intros x t I. apply UT. apply node_has. exact I. }
      eapply source_works; [|reflexivity|exact (AND _ _ _ DS)|exact F]. cbn [html_of].
      rewrite HN, <- HN, JN, HN. cbn [app].
      assert (NE : stem <> []) by apply N.
      assert (JH : named (stem ++ utf8 ".html") stem (utf8 "html")) by ext. assert (JJ : named (stem ++ utf8 ".json") stem (utf8 "json")) by ext.
      rewrite (dafter_last [((out, stem ++ utf8 ".css"), css)] (out, stem ++ utf8 ".html") html [((out, stem ++ utf8 ".json"), [])]).
      * cbn [source_of]. apply RX. exact XD.
      * cbn [map fst In]. intros [X|[]]. apply (f_equal snd) in X. cbn [snd] in X. rewrite X in JJ. destruct (named_unique _ _ _ _ _ JH JJ) as [_ ?]. discriminate.
Qed.
(** A run on inputs that can be processed, with valid options, ends with status 0 (and by C83 its
    outputs are then there). *)
Theorem C85_success k d w st ig :
  reads_xml read -> runs k d w st -> k_inputs k <> [] -> ignores (k_ignore k) ig ->
  (forall p, In p (k_inputs k) -> input_works k d p) -> st = 0.
Proof.
  intros RX R NE IG ALL. unfold Disk.runs in R.
  assert (FA : forallb (found d) (k_inputs k) = true).
  { apply forallb_forall. intros p I. unfold found. destruct (ALL p I) as (stem & [(_ & _ & s & root & -> & _)|(_ & pk & -> & _)]); reflexivity. }
  rewrite FA in R.
  assert (AI : match k_ignore k with Some t => arg_lintcode t | None => Some [] end = Some ig).
  { unfold ignores in IG. destruct (k_ignore k) as [t|]; [apply C61_codes; exact IG | congruence]. }
  rewrite AI in R. destruct (k_inputs k) as [|p0 ins0] eqn:KI; [congruence|]. rewrite <- KI in R, ALL. clear NE FA.
  assert (OK : forall p, In p (k_inputs k) -> forall d', (forall q stem, In q (k_inputs k) -> (docx_file q stem \/ html_file q stem /\ ~ overlap (k_out k) (k_inputs k) q) -> d' q = d q) ->
    forall w m e, process (mkArgs (k_skip k) ig) (k_out k) d' p w m e -> well (k_validate k) m e = true).
  { intros p I d' AG w0 m e P. destruct (ALL p I) as (stem & [(N & NO & s & root & D & X)|(N & pk & D & X)]).
    - eapply (process_works _ _ _ _ _ stem); [exact RX | exact P|]. left. split; [exact N|]. exists s, root. split; [|exact X]. rewrite (AG p stem I); [exact D | auto].
    - eapply (process_works _ _ _ _ _ stem); [exact RX | exact P|]. right. split; [exact N|]. exists pk. split; [|exact X]. rewrite (AG p stem I); [exact D | auto]. }
  assert (G : forall ins d' w st, incl ins (k_inputs k) -> (forall q stem, In q (k_inputs k) -> (docx_file q stem \/ html_file q stem /\ ~ overlap (k_out k) (k_inputs k) q) -> d' q = d q) ->
     loop (mkArgs (k_skip k) ig) (k_validate k) (k_out k) d' ins w st -> st = 0).
  { clear R w st. intros ins d' w st IN AG L. induction L as [d'|d' p ins N|d' p ins w m e A P W|d' p ins w m e w' st A P W L IH].
    - reflexivity.
    - exfalso. apply N. apply accepted_name. destruct (ALL p (IN p (or_introl eq_refl))) as (stem & [(X & _)|(X & _)]); exists stem; [right | left]; exact X.
    - exfalso. pose proof (OK p (IN p (or_introl eq_refl)) d' AG w m e P). congruence.
    - apply IH; [intros q I; apply IN; right; exact I|]. intros q stem I H. rewrite <- (AG q stem I H). apply dafter_other. intros X. apply in_map_iff in X as (x & EX & X).
      pose proof (process_paths _ _ _ _ _ _ _ _ _ A P) as F. rewrite Forall_forall in F. pose proof (F x X) as O. rewrite EX in O. pose proof O as O2. apply output_named in O2 as (EO & st' & _ & O2).
      destruct H as [N|[N NO]].
      + unfold docx_file in N. destruct O2 as [Y|(_ & [Y|Y])]; destruct (named_unique _ _ _ _ _ N Y) as [_ ?]; discriminate.
      + unfold html_file in N. destruct O2 as [Y|(DF & [Y|Y])]; destruct (named_unique _ _ _ _ _ N Y) as [ES ?]; try discriminate. subst st'.
        apply NO. exists p, stem. split; [apply IN; left; reflexivity|]. split; [exact DF|]. destruct q as [qd qn]. cbn [fst snd] in *. subst qd. f_equal. destruct N as [E' _]. exact E'. }
  eapply G; [apply incl_refl | reflexivity | exact R].
Qed.
(** A docx file with a revision, of a specification without extractors of its own, whose texts and
    colours can be written and whose tables consist of rectangles, have rows and mean something. *)
Definition docx_ready (stem : str) (pk : package) : Prop :=
  exists doc title rev us,
    holds_document pk doc title (Some rev) /\ styles_have_ids "paragraph" (dx_styles doc) /\ styles_have_ids "character" (dx_styles doc)
    /\ usual doc version stem title (Some rev) /\ regular_tables doc /\ tables_have_rows doc /\ document_means doc us /\ no_quirks title rev.
Lemma ready_works stem pk : docx_ready stem pk -> docx_works true false stem pk.
Proof.
  intros (doc & title & rev & us & HD & SP & SC & U & RT & TR & DM & NQ). exists doc, title, (Some rev), us.
  split; [exact HD|]. split; [exact SP|]. split; [exact SC|]. split; [exact U|]. split; [exact RT|]. split; [exact DM|].
  intros txt cell root DS. destruct (shown_works _ _ _ _ _ _ _ _ (document_tall doc TR us DM) NQ DS) as (es & E). exists es. split; [exact E | discriminate].
Qed.
(** With --skip-figure-on-error and without --validate, all such docx files are processed, whatever
    their tables say. *)
Theorem C85_skip k d w st ig :
  reads_xml read -> runs k d w st -> k_inputs k <> [] -> ignores (k_ignore k) ig -> k_skip k = true -> k_validate k = false ->
  (forall p, In p (k_inputs k) -> exists stem pk, docx_file p stem /\ d p = Some (Package pk) /\ docx_ready stem pk) -> st = 0.
Proof.
  intros RX R NE IG SK VA ALL. apply (C85_success k d w st ig RX R NE IG). intros p I. destruct (ALL p I) as (stem & pk & N & D & RD).
  exists stem. right. split; [exact N|]. exists pk. split; [exact D|]. rewrite SK, VA. apply ready_works. exact RD.
Qed.
End Run.
Print Assumptions C85_total.
Print Assumptions C85_skip.
Print Assumptions C85_success.
