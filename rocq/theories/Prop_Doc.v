(** Properties of processing a whole document: C23 and C24 (skip on error), C25 (T1000), C26
    (fail fast), C28 (figures without an id), C30 (nested figures), C31 (ids not unique), C37
    (termination).  The vocabulary is in SpecDoc.v and SpecRun.v. *)
From Coq Require Import NArith ZArith List Bool String Lia ZifyBool ZifyN.
From Verif Require Import PyTables PyStr PyStrFacts Regex Regexes Xml Json Lint RowIter Helpers Extract Document
  MFacts SpecText SpecFields SpecLabel SpecHeader SpecRows SpecTable SpecDoc SpecRun SpecIter IterProofs
  RangeProofs LabelProofs ValidateProofs RowProofs HeaderProofs TableProofs SizeProofs Prop_Header DocProofs DocFlow DocRuns
  Prop_Table.
Import ListNotations.
Local Open Scope list_scope.
Local Open Scope N_scope.

(** All parsers the program can choose are [tame]. *)
Theorem tame_parsers skip key rev : tame (get_parser skip key rev).
Proof.
  unfold get_parser. destruct (find _ QUIRKS_MAP) as [[k [lo fo]]|] eqn:F; [|intros ? ? ? ? []].
  apply find_some in F as [F _]. cbn [QUIRKS_MAP In] in F.
  repeat (destruct F as [F | F]; [injection F as <- <- <-; intros fig c prefix fig' H1 H2; cbn in H1;
    repeat (destruct H1 as [H1 | H1]; [injection H1 as <- <-; cbn in H2; (discriminate || (injection H2 as <- <-; split; [discriminate | split; [cbn; intuition discriminate | reflexivity]]))|]); destruct H1|]).
  destruct F.
Qed.

(** ** Tables one by one *)
Lemma figures_tables doc : Forall (fun t => e_tag t = t_table) (figures doc).
Proof.
  apply Forall_forall. intros t H. unfold figures in H. apply in_flat_map in H as (b & _ & H).
  unfold children, kids_of in H. apply in_map_iff in H as (k & <- & H). apply filter_In in H as [_ H]. apply seqb_eq in H. exact H.
Qed.
Lemma figures_single t : e_tag t = t_table -> figures (single t) = [t].
Proof. intros H. unfold figures, single, children, kids_of. cbn [e_kids filter fst e_tag]. rewrite !seqb_refl. cbn. rewrite H, seqb_refl. reflexivity. Qed.

Lemma bind_ret_unit (m : M unit) f : bind m (fun _ => ret tt) f = m f.
Proof. unfold bind. destruct (m f) as [[[[]|e|] g] t]; try reflexivity. cbn. rewrite app_nil_r. reflexivity. Qed.

Lemma single_run P t : e_tag t = t_table ->
  parse_doc P (single t) = match classify t with
    | FNoRow => (Exn EXPath, [])
    | FNoTitle => (Ok tt, [])
    | FNoId title => (Ok tt, [EvLint (lint_no_id 0 title)])
    | FFigure m tbl => (outcome (parse_figure P) (m, tbl), out (parse_figure P) (m, tbl))
    end.
Proof.
  intros H. unfold parse_doc. rewrite (figures_single _ H). cbn [parse_tables].
  destruct (classify t) as [| |title|m tbl] eqn:C; try reflexivity.
  rewrite bind_ret_unit. unfold outcome, out. cbn [fst snd]. destruct (parse_figure P m tbl false) as [[r f] t']. reflexivity.
Qed.

Lemma missing_named n : missing_name n <> [].
Proof. unfold missing_name. discriminate. Qed.

Lemma tables_run P ts : Forall (fun t => e_tag t = t_table) ts -> forall n f,
  exists r f' es, parse_tables P n ts f = (r, f', es)
   /\ ((r = Ok tt /\ in_order P n ts es)
       \/ (r <> Ok tt /\ exists A t B ea et, ts = A ++ t :: B /\ in_order P n A ea /\ parse_doc P (single t) = (r, et) /\ es = ea ++ et)).
Proof.
  induction 1 as [|t ts T TS IH]; intros n f.
  - exists (Ok tt), f, []. split; [reflexivity|]. left. split; [reflexivity | constructor].
  - pose proof (single_run P t T) as SR. pose proof (classify_spec t) as CS. cbn [parse_tables].
    destruct (classify_iff t) as (CI & _).
    assert (CN : (forall title, classify t <> FNoId title) -> forall title, ~ unidentified t title).
    { intros N title U. exact (N title (CI _ U)). }
    assert (K : forall e r (f' : bool) es, (forall title, ~ unidentified t title) -> parse_doc P (single t) = (Ok tt, e) ->
       ((r = Ok tt /\ in_order P n ts es) \/ (r <> Ok tt /\ exists A t B ea et, ts = A ++ t :: B /\ in_order P n A ea /\ parse_doc P (single t) = (r, et) /\ es = ea ++ et)) ->
       exists r0 f0 es0, (r, f', e ++ es) = (r0, f0, es0)
        /\ ((r0 = Ok tt /\ in_order P n (t :: ts) es0)
           \/ (r0 <> Ok tt /\ exists A u B ea et, t :: ts = A ++ u :: B /\ in_order P n A ea /\ parse_doc P (single u) = (r0, et) /\ es0 = ea ++ et))).
    { intros e r f' es NU SE [(-> & IO) | (NR & A & u & B & ea & et & -> & IO & EU & ->)]; do 3 eexists; (split; [reflexivity|]).
      - left. split; [reflexivity|]. apply io_table; assumption.
      - right. split; [exact NR|]. exists (t :: A), u, B, (e ++ ea), et. split; [reflexivity|]. split; [apply io_table; assumption|].
        split; [exact EU | apply app_assoc]. }
    destruct (classify t) as [| |title|m tbl] eqn:C.
    + exists (Exn EXPath), f, []. split; [reflexivity|]. right. split; [discriminate|]. exists [], t, ts, [], [].
      split; [reflexivity|]. split; [constructor|]. split; [exact SR | reflexivity].
    + destruct (IH n f) as (r & f' & es & E & D). rewrite E. apply (K [] r f' es); [apply CN; discriminate | exact SR | exact D].
    + destruct (IH (n + 1) f) as (r & f' & es & E & D).
      erewrite bind_ok by (apply add_issue_tbl; [apply missing_named | reflexivity]). rewrite E.
      do 3 eexists. split; [reflexivity|]. destruct D as [(-> & IO) | (NR & A & u & B & ea & et & -> & IO & EU & ->)].
      * left. split; [reflexivity|]. apply io_no_id; assumption.
      * right. split; [exact NR|]. exists (t :: A), u, B, (EvLint (lint_no_id n title) :: ea), et. split; [reflexivity|].
        split; [apply io_no_id; assumption|]. split; [exact EU | reflexivity].
    + assert (F : parse_figure P m tbl f = parse_figure P m tbl false).
      { apply figure_flag. apply classify_figure in C. tauto. }
      unfold bind. rewrite F. unfold outcome, out in SR. cbn [fst snd] in SR.
      destruct (parse_figure P m tbl false) as [[r1 f1] t1]. cbn [fst snd] in SR. destruct r1 as [[]|e|].
      * destruct (IH n f1) as (r & f' & es & E & D). rewrite E. apply (K t1 r f' es); [apply CN; discriminate | exact SR | exact D].
      * do 3 eexists. split; [reflexivity|]. right. split; [discriminate|]. exists [], t, ts, [], t1.
        split; [reflexivity|]. split; [constructor|]. split; [exact SR | reflexivity].
      * do 3 eexists. split; [reflexivity|]. right. split; [discriminate|]. exists [], t, ts, [], t1.
        split; [reflexivity|]. split; [constructor|]. split; [exact SR | reflexivity].
Qed.

Lemma in_order_fun P n ts es es' : in_order P n ts es -> in_order P n ts es' -> es = es'.
Proof.
  intros H. revert es'. induction H as [n | n t title ts es U H IH | n t ts e es U E H IH]; intros es' H'; inversion H'; subst.
  - reflexivity.
  - assert (title0 = title) as -> by (eapply title_text_fun; [match goal with H : unidentified t title0 |- _ => exact (proj1 H) end | exact (proj1 U)]).
    f_equal. apply IH. assumption.
  - match goal with H : forall title, ~ unidentified t title |- _ => destruct (H _ U) end.
  - match goal with H : unidentified t _ |- _ => destruct (U _ H) end.
  - match goal with E' : parse_doc P (single t) = (Ok tt, e0) |- _ => rewrite E in E'; injection E' as <- end. f_equal. apply IH. assumption.
Qed.
Lemma in_order_app P a : forall n b es, in_order P n (a ++ b) es ->
  exists ea eb titles, es = ea ++ eb /\ no_id_titles a titles /\ in_order P n a ea /\ in_order P (n + N.of_nat (List.length titles)) b eb.
Proof.
  induction a as [|t a IH]; intros n b es H.
  - exists [], es, []. rewrite N.add_0_r. repeat split; [constructor | constructor | exact H].
  - cbn [app] in H. inversion H; subst.
    + match goal with H : in_order P _ (a ++ b) _ |- _ => destruct (IH _ _ _ H) as (ea & eb & ts' & -> & N1 & N2 & N3) end.
      exists (EvLint (lint_no_id n title) :: ea), eb, (title :: ts'). split; [reflexivity|]. split; [constructor; assumption|].
      split; [apply io_no_id; assumption|]. cbn [List.length]. rewrite Nat2N.inj_succ.
      replace (n + N.succ (N.of_nat (List.length ts'))) with (n + 1 + N.of_nat (List.length ts')) by lia. exact N3.
    + match goal with H : in_order P _ (a ++ b) _ |- _ => destruct (IH _ _ _ H) as (ea & eb & ts' & -> & N1 & N2 & N3) end.
      exists (e ++ ea), eb, ts'. split; [apply app_assoc|]. split; [apply nt_table; assumption|].
      split; [apply io_table; assumption | exact N3].
Qed.
Lemma in_order_renumber P ts : forall n n' es es', in_order P n ts es -> in_order P n' ts es' ->
  other_than_no_id es = other_than_no_id es'.
Proof.
  intros n n' es es' H. revert n' es'. induction H as [n | n t title ts es U H IH | n t ts e es U E H IH]; intros n' es' H'; inversion H'; subst.
  - reflexivity.
  - cbn. eapply IH; eassumption.
  - match goal with H : forall title, ~ unidentified t title |- _ => destruct (H _ U) end.
  - match goal with H : unidentified t _ |- _ => destruct (U _ H) end.
  - match goal with E' : parse_doc P (single t) = (Ok tt, e0) |- _ => rewrite E in E'; injection E' as <- end.
    unfold other_than_no_id. rewrite !filter_app. f_equal. eapply IH; eassumption.
Qed.

(** C23: a run without exception produces exactly the concatenation, in document order, of
    what the tables produce on their own (with or without --skip-figure-on-error). *)
Theorem C23_concatenation P doc es :
  parse_doc P doc = (Ok tt, es) <-> in_order P 0 (figures doc) es.
Proof.
  unfold parse_doc. destruct (tables_run P _ (figures_tables doc) 0 false) as (r & f' & es' & E & D). rewrite E. split.
  - intros [= -> ->]. destruct D as [[_ D] | [D _]]; [exact D | congruence].
  - pose proof (figures_tables doc) as FT. intros IO. destruct D as [(-> & D) | (NR & A & t & B & ea & et & EF & IO' & EU & ->)].
    + f_equal. eapply in_order_fun; eassumption.
    + exfalso. rewrite EF in IO, FT. apply Forall_app in FT as [_ FT]. apply Forall_inv in FT as T. clear - NR EU IO T.
      assert (G : forall A n es, in_order P n (A ++ t :: B) es -> False); [|eapply G, IO].
      induction A0 as [|u A0 IH]; intros n es0 IO0; inversion IO0; subst; try (eapply IH; eassumption).
      * match goal with H : unidentified t _ |- _ => rename H into U end.
        destruct (classify_iff t) as (CI & _). apply CI in U.
        rewrite (single_run P t T), U in EU. injection EU as <- _. congruence.
      * congruence.
Qed.

(** The same for a run that ends with an exception: the first table that raises on its own
    ends it. *)
Theorem C26_fail_fast P doc r es : r <> Ok tt ->
  (parse_doc P doc = (r, es) <->
   exists A t B ea et, figures doc = A ++ t :: B /\ in_order P 0 A ea
     /\ parse_doc P (single t) = (r, et) /\ es = ea ++ et).
Proof.
  intros NR. unfold parse_doc at 1. destruct (tables_run P _ (figures_tables doc) 0 false) as (r' & f' & es' & E & D). rewrite E. split.
  - intros [= -> ->]. destruct D as [[D _] | [_ D]]; [congruence | exact D].
  - intros (A & t & B & ea & et & EF & IO & EU & ->).
    pose proof (figures_tables doc) as FT. rewrite EF in FT. apply Forall_app in FT as [_ FT]. apply Forall_inv in FT as T.
    assert (NU : forall title, ~ unidentified t title).
    { intros title U. destruct (classify_iff t) as (CI & _). apply CI in U. rewrite (single_run P t T), U in EU. congruence. }
    assert (G : forall A' t' B' ea' et' r' n, A ++ t :: B = A' ++ t' :: B' -> in_order P n A ea -> in_order P n A' ea' ->
       parse_doc P (single t') = (r', et') -> r' <> Ok tt -> (forall title, ~ unidentified t' title) -> (r', ea' ++ et') = (r, ea ++ et)).
    { clear - EU NR NU. revert ea. induction A as [|u A IH]; intros ea A' t' B' ea' et' r' n EQ IO IO' EU' NR' NU'.
      - destruct A' as [|u' A'].
        + injection EQ as -> ->. inversion IO; inversion IO'; subst. cbn. congruence.
        + injection EQ as <- EQ. inversion IO'; subst; [|congruence].
          match goal with H : unidentified t _ |- _ => destruct (NU _ H) end.
      - destruct A' as [|u' A'].
        + injection EQ as -> EQ. inversion IO; subst; [|congruence].
          match goal with H : unidentified t' _ |- _ => destruct (NU' _ H) end.
        + injection EQ as <- EQ. inversion IO; subst; inversion IO'; subst;
            try match goal with H : forall title, ~ unidentified u title, H' : unidentified u _ |- _ => destruct (H _ H') end.
          * assert (title0 = title) as -> by (eapply title_text_fun; [match goal with H : unidentified u title0 |- _ => exact (proj1 H) end | match goal with H : unidentified u title |- _ => exact (proj1 H) end]).
            assert (K : (r', es0 ++ et') = (r, es ++ et)) by (eapply IH; eassumption). injection K as -> K. cbn. rewrite K. reflexivity.
          * match goal with H1 : parse_doc P (single u) = (Ok tt, e), H2 : parse_doc P (single u) = (Ok tt, e0) |- _ => rewrite H1 in H2; injection H2 as <- end.
            assert (K : (r', es0 ++ et') = (r, es ++ et)) by (eapply IH; eassumption). injection K as -> K. rewrite <- !app_assoc, K. reflexivity. }
    destruct D as [(-> & D) | (NR' & A' & t' & B' & ea' & et' & EF' & IO' & EU' & ->)].
    + exfalso. rewrite EF in D. apply in_order_app in D as (? & ? & ? & _ & _ & _ & D). inversion D; subst; [|congruence].
      match goal with H : unidentified t _ |- _ => destruct (NU _ H) end.
    + pose proof (figures_tables doc) as FT'. rewrite EF' in FT'. apply Forall_app in FT' as [_ FT']. apply Forall_inv in FT' as T'.
      eapply (G A' t' B'); try eassumption; [congruence|].
      intros title U. destruct (classify_iff t') as (CI & _). apply CI in U. rewrite (single_run P t' T'), U in EU'. congruence.
Qed.

(** ** Own extractors and columns *)
Lemma first_of_fun hs names a b : first_of hs names a -> first_of hs names b -> a = b.
Proof. intros H1 H2. apply first_hdr_some in H1, H2. congruence. Qed.

Lemma can_apply_columns c hs : can_apply c hs = None <-> forall k l d, ~ uses_columns c hs k l d.
Proof.
  split.
  - intros N k l d (hk & hl & hd & L1 & L2 & L3 & F1 & F2).
    assert (E1 : first_hdr hs (ec_key_hdrs c) = Some hk) by (apply first_hdr_some; exact F1).
    unfold can_apply in N. rewrite E1 in N. destruct F2 as [(F2 & F3) | (K & LN & -> & <- & F2 & F3 & F4)].
    + apply first_hdr_some in F2, F3. rewrite F2, F3 in N. discriminate.
    + assert (N' : (if (N.of_nat (List.length hs) =? 2) && seqb (utf8 "value") h_value then
            match find (fun h => negb (seqb h h_value)) hs with
            | Some [] => None | Some o => Some (mkMap (utf8 "value") o o) | None => None end else None) = None).
      { rewrite K in N. destruct (first_hdr hs (ec_label_hdrs c)); [|exact N]. destruct (first_hdr hs (ec_content_hdrs c)); [discriminate | exact N]. }
      rewrite LN in N'. change (N.of_nat 2 =? 2) with true in N'. change (utf8 "value") with h_value in *. rewrite seqb_refl in N'. cbn [andb] in N'.
      destruct F1 as (a & b & E & _ & _).
      assert (S : In h_value hs) by (rewrite E; apply in_elt).
      destruct hs as [|h1 [|h2 [|h3 ?]]]; try discriminate. cbn [find] in N'.
      destruct (seqb_spec h1 h_value) as [T1 | T1]; cbn [negb] in N'.
      * subst h1. destruct F4 as [F4 | [F4 | []]]; [congruence|]. subst h2.
        destruct (seqb_spec hl h_value); [congruence|]. cbn [negb] in N'. destruct hl; [congruence | discriminate].
      * destruct S as [S | [S | []]]; [congruence|]. subst h2. destruct F4 as [F4 | [F4 | []]]; [|congruence]. subst h1.
        destruct hl; [congruence | discriminate].
  - intros N. destruct (can_apply c hs) as [mp|] eqn:CA; [|reflexivity]. exfalso.
    destruct (run_extractor_some (fun _ _ => ret tt) (mkParser false [] []) (mkMeta None [] None) (Elem [] [] [] []) hs c mp CA) as (k & l & d & L1 & L2 & L3 & _).
    apply (N k l d). eapply uses_columns_of; eassumption.
Qed.
Lemma mismatch_iff P m tbl : mismatch P m tbl <-> unrecognised P m tbl.
Proof.
  split; intros (c & hs & H1 & H2 & H3); exists c, hs; (split; [exact H1|]; split; [exact H2|]); apply can_apply_columns; exact H3.
Qed.

(** ** One figure, with and without --skip-figure-on-error *)
Lemma no_skip_with P : no_skip P = with_skip false P. Proof. reflexivity. Qed.

Lemma identified_named t m tbl : identified t m tbl -> m_fig m <> [] /\ m_parent m = None.
Proof.
  intros H. destruct (classify_iff t) as (_ & _ & _ & CI). apply CI in H. apply classify_figure in H. tauto.
Qed.

Lemma unrecognised_run P m tbl f : m_fig m <> [] -> unrecognised P m tbl -> fst (fst (parse_figure P m tbl f)) = Exn ERuntime.
Proof.
  intros Hm (c & hs & L1 & L2 & L3). rewrite <- (with_skip_id P).
  destruct (figure_flow P m tbl Hm) as (t0 & _ & [(hs' & LK & _) | [(_ & E) | (x & (_ & hs' & HT & HC & HU) & _)]]).
  - congruence.
  - rewrite E. reflexivity.
  - exfalso. unfold chosen in HC. rewrite L1 in HC. rewrite (table_headers_fun _ _ _ HT L2), HC in HU. exact (L3 _ _ _ HU).
Qed.

Lemma figure_cmp P m tbl : tame P -> named m -> m_parent m = None ->
  exists r0 f0 t r f, parse_figure (no_skip P) m tbl false = (r0, f0, t) /\ parse_figure P m tbl false = (r, f, t)
    /\ verdict P m tbl (r0, f0, t)
    /\ (p_skip P = false -> r = r0)
    /\ (p_skip P = true -> r = Ok tt \/ (r = Exn ERuntime /\ unrecognised P m tbl)).
Proof.
  intros TM NM PN. rewrite no_skip_with.
  destruct (noskip_shape P (tame_sane _ TM) (S (esize tbl)) m tbl) as [V _]; [lia | exact (proj1 NM) |].
  pose proof (skip_run P TM (S (esize tbl)) m tbl (Nat.lt_succ_diag_r _) NM) as SR.
  destruct (parse_figure (with_skip false P) m tbl false) as [[r0 f0] t] eqn:E0.
  destruct SR as (r2 & f2 & E2 & _ & S2). specialize (S2 PN). exists r0, f0, t.
  pose proof (f_equal (fun Q => parse_figure Q m tbl false) (with_skip_id P)) as WI. cbv beta in WI.
  destruct (p_skip P) eqn:SK.
  - exists r2, f2. rewrite <- WI, E2. split; [reflexivity|]. split; [reflexivity|]. split; [exact V|]. split; [discriminate|]. intros _.
    destruct S2 as [-> | (-> & _ & MM)]; [left; reflexivity | right]. split; [reflexivity | apply mismatch_iff, MM].
  - exists r0, f0. rewrite <- WI, E0. split; [reflexivity|]. split; [reflexivity|]. split; [exact V|]. split; [reflexivity | discriminate].
Qed.

(** The parser given, in [figure_cmp] form, for a table of a document. *)
Lemma table_cmp P t : tame P -> e_tag t = t_table ->
  exists r0 es r, parse_doc (no_skip P) (single t) = (r0, es) /\ parse_doc P (single t) = (r, es)
    /\ r0 <> OutOfFuel /\ r <> OutOfFuel
    /\ (r0 = Ok tt -> r = Ok tt) /\ (p_skip P = false -> r = r0)
    /\ (p_skip P = true -> r = Ok tt \/ (r = Exn EXPath /\ r0 = r /\ rowless t) \/ (r = Exn ERuntime /\ exists m tbl, identified t m tbl /\ unrecognised P m tbl))
    /\ ((forall title, ~ unidentified t title) -> coded es T1008 = [])
    /\ (r0 = Ok tt -> errors es = [])
    /\ (forall e, r0 = Exn e -> (List.length (errors es) = 1)%nat \/ errors es = [] /\ r = r0 /\ (rowless t \/ exists m tbl, identified t m tbl /\ unrecognised P m tbl)).
Proof.
  intros TM T. rewrite (single_run _ _ T), (single_run P _ T). pose proof (classify_spec t) as CS.
  destruct (classify t) as [| |title|m tbl] eqn:C.
  - exists (Exn EXPath), [], (Exn EXPath).
    refine (conj eq_refl (conj eq_refl (conj _ (conj _ (conj _ (conj _ (conj _ (conj _ (conj _ _))))))))); try discriminate; auto 8.
  - exists (Ok tt), [], (Ok tt).
    refine (conj eq_refl (conj eq_refl (conj _ (conj _ (conj _ (conj _ (conj _ (conj _ (conj _ _))))))))); try discriminate; auto.
  - exists (Ok tt), [EvLint (lint_no_id 0 title)], (Ok tt).
    refine (conj eq_refl (conj eq_refl (conj _ (conj _ (conj _ (conj _ (conj _ (conj _ (conj _ _))))))))); try discriminate; auto.
    intros H. destruct (H _ CS).
  - destruct (identified_named _ _ _ CS) as [H1 H2].
    destruct (figure_cmp P m tbl TM) as (r0 & f0 & es & r & f & E0 & E & V & S1 & S2); [split; [exact H1 | congruence] | exact H2 |].
    unfold outcome, out. cbn [fst snd]. rewrite E0, E. cbn [fst snd]. exists r0, es, r. split; [reflexivity|]. split; [reflexivity|].
    assert (RR : p_skip P = true \/ p_skip P = false) by (destruct (p_skip P); auto).
    assert (R0 : r0 <> OutOfFuel) by (destruct V as [_ [(-> & _) | [(? & ? & ? & -> & _) | (-> & _)]]]; discriminate).
    split; [exact R0|]. split; [|split; [|split; [|split; [|split; [|split]]]]].
    + destruct RR as [RR | RR]; [destruct (S2 RR) as [-> | (-> & _)]; discriminate | rewrite (S1 RR); exact R0].
    + intros ->. destruct RR as [RR | RR]; [|apply S1, RR]. destruct (S2 RR) as [-> | (-> & U)]; [reflexivity|].
      exfalso. pose proof (unrecognised_run (no_skip P) m tbl false H1 U) as K. rewrite E0 in K. discriminate.
    + exact S1.
    + intros SK. destruct (S2 SK) as [-> | (-> & U)]; [left; reflexivity | right; right]. split; [reflexivity|]. eauto.
    + intros _. exact (proj1 V).
    + intros ->. destruct V as [_ [(_ & _ & V) | [(? & ? & ? & ? & _) | (? & _)]]]; [exact V | discriminate | discriminate].
    + intros e ->. destruct V as [_ [(? & _ & _) | [(e' & t' & l & _ & _ & -> & L & ET) | (V1 & _ & V2 & V3)]]]; [discriminate | left | right].
      * rewrite errors_app, ET. unfold errors, of_code. cbn. rewrite L. reflexivity.
      * split; [exact V2|]. apply mismatch_iff in V3. split; [|right; eauto].
        pose proof (unrecognised_run P m tbl false H1 V3) as K. rewrite E in K. cbn in K. congruence.
Qed.

Lemma in_tag doc t : In t (figures doc) -> e_tag t = t_table.
Proof. intros H. pose proof (figures_tables doc) as F. rewrite Forall_forall in F. exact (F t H). Qed.

(** C37: processing terminates: the recursion never needs more depth than the size of the
    tree (running out of it would be the outcome [OutOfFuel]). *)
Theorem C37_terminates P doc : tame P -> fst (parse_doc P doc) <> OutOfFuel.
Proof.
  intros TM H. destruct (parse_doc P doc) as [r es] eqn:E. cbn in H. subst r.
  apply C26_fail_fast in E as (A & t & B & ea & et & EF & _ & EU & _); [|discriminate].
  destruct (table_cmp P t TM) as (r0 & es0 & r & _ & E1 & _ & N & _); [apply (in_tag doc); rewrite EF; apply in_elt|].
  congruence.
Qed.
(** Any larger bound gives the same result. *)
Theorem C37_any_depth P n m tbl f : (esize tbl < n)%nat -> on_parse_fig n P m tbl f = parse_figure P m tbl f.
Proof. apply parse_figure_depth. Qed.

(** C23: replacing the table [t] of a document by [t'] leaves what all other tables produce
    unchanged, but for the numbers in FIG_ID_MISSING[n]; these stay too if both or none of
    the tables are such figures. *)
Theorem C23_replacement P d d' A t t' B es es' :
  figures d = A ++ t :: B -> figures d' = A ++ t' :: B ->
  parse_doc P d = (Ok tt, es) -> parse_doc P d' = (Ok tt, es') ->
  exists ea e e' eb eb',
    es = ea ++ e ++ eb /\ es' = ea ++ e' ++ eb'
    /\ in_order P 0 A ea
    /\ (exists n, in_order P n [t] e /\ in_order P n [t'] e')
    /\ other_than_no_id eb = other_than_no_id eb'
    /\ ((exists title, unidentified t title) <-> (exists title, unidentified t' title) -> eb = eb').
Proof.
  intros F F' R R'. apply C23_concatenation in R, R'. rewrite F in R. rewrite F' in R'.
  apply in_order_app in R as (ea & er & ts & -> & NT & IA & IR). apply in_order_app in R' as (ea' & er' & ts' & -> & NT' & IA' & IR').
  pose proof (in_order_fun _ _ _ _ _ IA IA') as <-.
  assert (ts' = ts) as ->.
  { clear - NT NT'. revert ts' NT'. induction NT as [|t title A l U NT IH | t A l U NT IH]; intros ts' NT'; inversion NT'; subst.
    - reflexivity.
    - f_equal; [eapply title_text_fun; [match goal with H : unidentified t title0 |- _ => exact (proj1 H) end | exact (proj1 U)] | apply IH; assumption].
    - match goal with H : forall title, ~ unidentified t title |- _ => destruct (H _ U) end.
    - match goal with H : unidentified t _ |- _ => destruct (U _ H) end.
    - apply IH. assumption. }
  change (t :: B) with ([t] ++ B) in IR. change (t' :: B) with ([t'] ++ B) in IR'.
  apply in_order_app in IR as (e & eb & us & -> & NU & IT & IB). apply in_order_app in IR' as (e' & eb' & us' & -> & NU' & IT' & IB').
  exists ea, e, e', eb, eb'. split; [reflexivity|]. split; [reflexivity|]. split; [exact IA|]. split; [eauto|].
  split; [eapply in_order_renumber; eassumption|].
  intros EQ. assert (List.length us = List.length us') as LU.
  { assert (L : forall u us, no_id_titles [u] us -> ((exists title, unidentified u title) /\ List.length us = 1%nat) \/ (~ (exists title, unidentified u title) /\ List.length us = 0%nat)).
    { intros u vs H. inversion H; subst; (match goal with H : no_id_titles [] _ |- _ => inversion H; subst end).
      - left. split; [eauto | reflexivity].
      - right. split; [|reflexivity]. intros (title & U). match goal with H : forall title, ~ _ |- _ => exact (H _ U) end. }
    destruct (L _ _ NU) as [[L1 ->] | [L1 ->]], (L _ _ NU') as [[L2 ->] | [L2 ->]]; tauto || reflexivity. }
  rewrite LU in IB. eapply in_order_fun; eassumption.
Qed.

(** C24: with --skip-figure-on-error processing ends without an exception exactly if every
    table has a row and no figure with an extractor of its own has unrecognised columns. *)
Theorem C24_abort P doc : tame P -> p_skip P = true ->
  ((exists es, parse_doc P doc = (Ok tt, es)) <->
   forall t, In t (figures doc) -> ~ rowless t /\ forall m tbl, identified t m tbl -> ~ unrecognised P m tbl).
Proof.
  intros TM SK. split.
  - intros (es & E) t Ht. apply C23_concatenation in E. apply in_split in Ht as (A & B & EF).
    assert (T : e_tag t = t_table) by (apply (in_tag doc); rewrite EF; apply in_elt).
    rewrite EF in E. apply in_order_app in E as (ea & eb & ts & _ & _ & _ & E).
    assert (OK : (exists title, unidentified t title) \/ exists e, parse_doc P (single t) = (Ok tt, e)) by (inversion E; subst; eauto).
    destruct (classify_iff t) as (CI & CR & _ & CF).
    destruct OK as [(title & U) | (e & OK)].
    + apply CI in U. split; [intros R; apply CR in R; congruence | intros m tbl I; apply CF in I; congruence].
    + rewrite (single_run P t T) in OK. split.
      * intros R. apply CR in R. rewrite R in OK. discriminate.
      * intros m tbl I U. destruct (identified_named _ _ _ I) as [H1 _]. apply CF in I. rewrite I in OK.
        pose proof (unrecognised_run P m tbl false H1 U) as K. unfold outcome in OK. cbn [fst snd] in OK. rewrite K in OK. discriminate.
  - intros H. destruct (parse_doc P doc) as [r es] eqn:E. destruct r as [[]|e|]; [eauto | | ].
    + exfalso. apply C26_fail_fast in E as (A & t & B & ea & et & EF & _ & EU & _); [|discriminate].
      assert (I : In t (figures doc)) by (rewrite EF; apply in_elt).
      destruct (table_cmp P t TM (in_tag _ _ I)) as (r0 & es0 & r & _ & E1 & _ & _ & _ & _ & S & _). specialize (S SK). specialize (H t I).
      destruct S as [-> | [(_ & _ & R) | (_ & m & tbl & R1 & R2)]]; [congruence | exact (proj1 H R) | exact (proj2 H _ _ R1 R2)].
    + exfalso. apply (C37_terminates P doc TM). rewrite E. reflexivity.
Qed.
(** In particular: *)
Theorem C24_finishes P doc : tame P -> p_skip P = true ->
  (forall t, In t (figures doc) -> ~ rowless t) ->
  (forall t m tbl, In t (figures doc) -> identified t m tbl -> lookup_fig (p_fig_overrides P) (m_fig m) = None) ->
  exists es, parse_doc P doc = (Ok tt, es).
Proof.
  intros TM SK H1 H2. apply C24_abort; [exact TM | exact SK|]. intros t Ht. split; [apply H1, Ht|].
  intros m tbl I (c & hs & U & _). rewrite (H2 t m tbl Ht I) in U. discriminate.
Qed.
(** The exceptions it can end with. *)
Theorem C24_exceptions P doc r es : tame P -> p_skip P = true -> parse_doc P doc = (r, es) -> r = Ok tt \/ r = Exn EXPath \/ r = Exn ERuntime.
Proof.
  intros TM SK E. destruct r as [[]|e|]; [left; reflexivity | |].
  - right. apply C26_fail_fast in E as (A & t & B & ea & et & EF & _ & EU & _); [|discriminate].
    destruct (table_cmp P t TM) as (r0 & es0 & r & _ & E1 & _ & _ & _ & _ & S & _); [apply (in_tag doc); rewrite EF; apply in_elt|].
    specialize (S SK). destruct S as [-> | [(-> & _) | (-> & _)]]; [congruence | left; congruence | right; congruence].
  - exfalso. apply (C37_terminates P doc TM). rewrite E. reflexivity.
Qed.

(** C25: with --skip-figure-on-error, a table whose extraction raises leaves exactly one
    T1000, any other none; and the output is the same as without the option. *)
Theorem C25_one_error P t es : tame P -> p_skip P = true -> e_tag t = t_table ->
  parse_doc P (single t) = (Ok tt, es) ->
  ((raises P t /\ (List.length (errors es) = 1)%nat) \/ (~ raises P t /\ errors es = []))
  /\ snd (parse_doc (no_skip P) (single t)) = es.
Proof.
  intros TM SK T E. destruct (table_cmp P t TM T) as (r0 & es0 & r & E0 & E1 & N0 & _ & _ & _ & _ & _ & OKE & EXE).
  rewrite E in E1. injection E1 as <- <-. rewrite E0. split; [|reflexivity]. unfold raises. rewrite E0.
  destruct r0 as [[]|e|]; [| |congruence].
  - right. split; [intros (? & ? & ?); discriminate | auto].
  - left. split; [eauto|]. destruct (EXE e eq_refl) as [L | (_ & K & _)]; [exact L | discriminate].
Qed.

(** For a whole document: the number of T1000 is the number of tables that raise. *)
Theorem C25_document P doc es : tame P -> p_skip P = true -> parse_doc P doc = (Ok tt, es) ->
  exists ns, Forall2 (fun t n => (raises P t /\ n = 1%nat) \/ (~ raises P t /\ n = 0%nat)) (figures doc) ns
    /\ List.length (errors es) = list_sum ns.
Proof.
  intros TM SK E. apply C23_concatenation in E. pose proof (figures_tables doc) as FT. revert E FT. generalize 0. generalize (figures doc).
  intros ts n E. induction E as [n | n t title ts es U E IH | n t ts e es U ET E IH]; intros FT.
  - exists []. split; [constructor | reflexivity].
  - inversion FT; subst. destruct IH as (ns & I1 & I2); [assumption|]. exists (0%nat :: ns). split; [constructor; [|exact I1]|].
    + right. split; [|reflexivity]. intros (x & y & K). destruct (classify_iff t) as (CI & _). apply CI in U.
      rewrite (single_run _ t) in K by assumption. rewrite U in K. discriminate.
    + exact I2.
  - inversion FT; subst. destruct IH as (ns & I1 & I2); [assumption|].
    destruct (C25_one_error P t e TM SK) as [[(R & L) | (R & L)] _]; [assumption | assumption | |].
    + exists (1%nat :: ns). split; [constructor; [left; auto | exact I1]|]. rewrite errors_app, app_length, L, I2. reflexivity.
    + exists (0%nat :: ns). split; [constructor; [right; auto | exact I1]|]. rewrite errors_app, L. exact I2.
Qed.

(** ** Figures without an id *)

(** C28: the [i]-th figure without an id (from 0) gives the [i]-th T1008, under the name
    FIG_ID_MISSING[i] and with its title; no other table gives one. A run that is cut short
    has those of the tables [A] before the one that raised. *)
Definition numbered (ts : list str) : list lint :=
  map (fun it => lint_no_id (N.of_nat (fst it)) (snd it)) (combine (seq 0 (List.length ts)) ts).

Lemma in_order_no_id P ts : tame P -> Forall (fun t => e_tag t = t_table) ts -> forall n es, in_order P n ts es ->
  exists titles, no_id_titles ts titles
    /\ coded es T1008 = map (fun it => lint_no_id (n + N.of_nat (fst it)) (snd it)) (combine (seq 0 (List.length titles)) titles).
Proof.
  intros TM FT n es H. induction H as [n | n t title ts es U H IH | n t ts e es U E H IH].
  - exists []. split; [constructor | reflexivity].
  - apply Forall_cons_iff in FT as [F1 F2]. destruct (IH F2) as (titles & I1 & I2). exists (title :: titles).
    split; [constructor; assumption|]. change (EvLint ?a :: es) with ([EvLint a] ++ es). rewrite coded_app, I2.
    change (coded [EvLint (lint_no_id n title)] T1008) with [lint_no_id n title].
    cbn [List.length seq combine map fst snd app]. rewrite N.add_0_r. f_equal. rewrite <- seq_shift.
    generalize (seq 0 (List.length titles)). intros s. clear. revert titles.
    induction s as [|i s IH]; intros [|u titles]; cbn [combine map fst snd]; try reflexivity. f_equal; [f_equal; lia | apply IH].
  - apply Forall_cons_iff in FT as [F1 F2]. destruct (IH F2) as (titles & I1 & I2). exists titles.
    split; [constructor; assumption|]. rewrite coded_app, I2.
    destruct (table_cmp P t TM F1) as (r0 & es0 & r & _ & E1 & _ & _ & _ & _ & _ & C & _).
    rewrite E in E1. injection E1 as <- <-. rewrite (C U). reflexivity.
Qed.

Theorem C28_numbering P doc r es : tame P -> parse_doc P doc = (r, es) ->
  exists A B titles, figures doc = A ++ B /\ (r = Ok tt -> B = []) /\ no_id_titles A titles
    /\ of_code T1008 (lints_of es) = numbered titles.
Proof.
  intros TM E. pose proof (figures_tables doc) as FT. destruct r as [[]|e|].
  - apply C23_concatenation in E. destruct (in_order_no_id P _ TM FT _ _ E) as (titles & H1 & H2).
    exists (figures doc), [], titles. rewrite app_nil_r. repeat split; [exact H1 | exact H2].
  - apply C26_fail_fast in E as (A & t & B & ea & et & EF & IO & EU & ->); [|discriminate].
    rewrite EF in FT. apply Forall_app in FT as [FA FT]. apply Forall_inv in FT.
    destruct (in_order_no_id P _ TM FA _ _ IO) as (titles & H1 & H2).
    exists A, (t :: B), titles. split; [exact EF|]. split; [discriminate|]. split; [exact H1|].
    change (coded (ea ++ et) T1008 = numbered titles). rewrite coded_app, H2.
    destruct (table_cmp P t TM FT) as (r0 & es0 & r & _ & E1 & _ & _ & _ & _ & _ & C & _).
    rewrite EU in E1. injection E1 as <- <-. rewrite C; [apply app_nil_r|].
    intros title U. destruct (classify_iff t) as (CI & _). apply CI in U. rewrite (single_run P t FT), U in EU. discriminate.
  - exfalso. apply (C37_terminates P doc TM). rewrite E. reflexivity.
Qed.

(** The names differ. *)
Theorem C28_distinct i j t t' : i <> j -> l_fig (lint_no_id i t) <> l_fig (lint_no_id j t').
Proof.
  intros N E. apply N. cbn [l_fig lint_no_id] in E. unfold missing_name in E.
  apply app_inv_head in E. apply app_inv_tail in E. apply str_of_N_inj, E.
Qed.

(** Tables whose title row does not mention "Figure" give nothing. *)
Theorem C28_untitled P t : e_tag t = t_table -> untitled t -> parse_doc P (single t) = (Ok tt, []).
Proof. intros T U. rewrite (single_run P t T). destruct (classify_iff t) as (_ & _ & CU & _). apply CU in U. rewrite U. reflexivity. Qed.

(** ** The entities of one figure *)
Lemma processed_tame P doc m tbl : tame P -> processed P (figures doc) m tbl -> named m.
Proof.
  intros TM H. induction H as [t m tbl I C | m tbl x rs ok y content key sub H IH HD HT HY HK HS | m tbl x rs ok y m' tbl' H IH HD HT HY HE].
  - apply identified_iff, classify_figure in C as (C1 & C2 & _). split; [exact C1 | congruence].
  - apply sub_meta_named.
  - apply table_rows_iff in HT as [-> _]. destruct (extra_meta P m tbl x [(m', tbl')] HD) as [EX | (prefix & fig' & title & tbl2 & H1 & [= -> ->] & _)]; [eapply extra_splits; eassumption | discriminate |].
    split; [|cbn; congruence]. cbn. pose proof (handled_override _ _ _ _ _ _ HD H1) as L. apply lookup_named in L. exact (proj1 (TM _ _ _ _ L H1)).
Qed.

Lemma same_events P m tbl : tame P -> named m ->
  snd (parse_figure P m tbl false) = out (parse_figure (with_skip false P)) (m, tbl).
Proof.
  intros TM NM. pose proof (skip_run P TM (S (esize tbl)) m tbl (Nat.lt_succ_diag_r _) NM) as SR. unfold out. cbn [fst snd].
  pose proof (f_equal (fun Q => parse_figure Q m tbl false) (with_skip_id P)) as WI. cbv beta in WI.
  destruct (parse_figure (with_skip false P) m tbl false) as [[r0 f0] t] eqn:E0.
  destruct SR as (r2 & f2 & E2 & _). rewrite <- WI. destruct (p_skip P); [rewrite E2 | rewrite E0]; reflexivity.
Qed.

Lemma not_raising P n : outcome (parse_figure (with_skip false P)) n = Ok tt -> ~ figure_raises P n.
Proof. unfold outcome, figure_raises. intros H (e & f & es & E). change (no_skip P) with (with_skip false P) in E. rewrite E in H. discriminate. Qed.
Lemma raising P n e : outcome (parse_figure (with_skip false P)) n = Exn e -> figure_raises P n.
Proof.
  unfold outcome, figure_raises. change (no_skip P) with (with_skip false P). destruct (parse_figure _ _ _ _) as [[r f] es]. cbn. intros ->. eauto.
Qed.

Lemma figs_named x tbl rows figs : table_figs x rows figs -> (forall y, In y rows -> In y (fst (row_iter tbl))) ->
  Forall (fun n => named (fst n) /\ m_parent (fst n) <> None /\ (esize (snd n) < esize tbl)%nat) figs.
Proof.
  intros H HR. pose proof (table_figs_nested x tbl rows figs H HR) as F. eapply Forall_impl; [|exact F].
  intros n ((key & ->) & ES). split; [apply sub_meta_named|]. split; [discriminate | exact ES].
Qed.

Lemma flat_entities P figs p : tame P -> p = parse_figure (with_skip false P) -> Forall (fun n : meta * elem => named (fst n)) figs ->
  flat_map (fun n => ents_of (out p n)) figs = flat_map (figure_entities P) figs.
Proof.
  intros TM -> F. induction F as [|[m t] figs N F IH]; [reflexivity|]. cbn [flat_map]. f_equal; [|exact IH].
  unfold figure_entities. cbn [fst snd]. rewrite same_events by assumption. reflexivity.
Qed.

Lemma order_of_rows P doc m tbl : tame P -> processed P (figures doc) m tbl -> ~ figure_raises P (m, tbl) ->
  (exists hs, lookup_fig (p_fig_overrides P) (m_fig m) = None /\ table_headers tbl hs /\ unsupported hs /\ figure_entities P (m, tbl) = [])
  \/ exists x figs own rest, handled P m tbl x /\ table_figs x (fst (row_iter tbl)) figs
       /\ Forall (fun n => ~ figure_raises P n) figs
       /\ en_meta own = m
       /\ figure_entities P (m, tbl) = flat_map (figure_entities P) figs ++ own :: rest
       /\ (rest = [] \/ splits P (m_fig m) /\ exists n, m_parent (fst n) = None /\ rest = figure_entities P n).
Proof.
  intros TM PR NR. pose proof (processed_tame _ _ _ _ TM PR) as NM. unfold figure_entities at 1 2. cbn [fst snd].
  rewrite same_events by assumption.
  destruct (noskip_shape P (tame_sane _ TM) (S (esize tbl)) m tbl (Nat.lt_succ_diag_r _) (proj1 NM)) as [_ SH].
  set (p := parse_figure (with_skip false P)) in *.
  assert (NE : forall e, outcome p (m, tbl) <> Exn e) by (intros e H; exact (NR (raising _ _ _ H))).
  clear NR. revert SH NE. generalize (outcome p (m, tbl)). generalize (out p (m, tbl)). intros oo oc SH NE.
  destruct SH as [t0 hs HL LK TH US | t0 HL MM | t0 x s evs ent HL HD OS TF FA CK | t0 x s evs ent m' tbl' tail r HL HD OS TF FA CK SP EX RR T1 T2 | t0 x s a b e HL HD OS AB TF FA | t0 x s s1 m1 tbl1 s2 a b e tail HL HD OS AB TF SS FA RE TT]; try (destruct (NE _ eq_refl)).
  - left. exists hs. split; [exact LK|]. split; [exact TH|]. split; [exact US|]. rewrite ents_of_app, (header_lints_ents _ _ HL). reflexivity.
  - right. exists x, (nests s), ent, []. split; [exact HD|]. split; [exact TF|].
    pose proof (figs_named x tbl _ _ TF (fun _ H => H)) as FN.
    split; [eapply Forall_impl; [|exact FA]; intros n; apply not_raising|].
    split; [destruct CK as [CK _]; rewrite CK; destruct HD as (<- & _); reflexivity|]. split; [|left; reflexivity].
    rewrite !ents_of_app, (header_lints_ents _ _ HL), (events_ents p x s OS), (checked_ents _ _ _ CK). cbn [app].
    rewrite (flat_entities P _ p TM eq_refl) by (eapply Forall_impl; [|exact FN]; intros n [H _]; exact H). reflexivity.
  - destruct (extra_meta P m tbl x _ HD EX) as [EX' | (prefix & fig' & title & tbl2 & H1 & [= -> ->] & _)]; [discriminate|].
    assert (N' : named (mkMeta title fig' None)).
    { split; [|cbn; congruence]. cbn. pose proof (handled_override _ _ _ _ _ _ HD H1) as L. apply lookup_named in L. exact (proj1 (TM _ _ _ _ L H1)). }
    right. exists x, (nests s), ent, (figure_entities P (mkMeta title fig' None, tbl2)). split; [exact HD|]. split; [exact TF|].
    pose proof (figs_named x tbl _ _ TF (fun _ H => H)) as FN.
    split; [eapply Forall_impl; [|exact FA]; intros n; apply not_raising|].
    split; [destruct CK as [CK _]; rewrite CK; destruct HD as (<- & _); reflexivity|].
    assert (OKR : r = Ok tt).
    { destruct (noskip_shape P (tame_sane _ TM) (S (esize tbl2)) (mkMeta title fig' None) tbl2 (Nat.lt_succ_diag_r _) (proj1 N')) as [V _].
      fold p in V. unfold outcome in RR. cbn [fst snd] in RR. destruct (p (mkMeta title fig' None) tbl2 false) as [[r' f'] t'].
      cbn in RR. subst r'. destruct V as [_ [(-> & _) | [(e & ? & ? & -> & _) | (-> & _)]]]; [reflexivity | destruct (NE _ eq_refl) | destruct (NE _ eq_refl)]. }
    rewrite (T1 OKR), app_nil_r. split.
    + rewrite !ents_of_app, (header_lints_ents _ _ HL), (events_ents p x s OS), (checked_ents _ _ _ CK). cbn [app].
      rewrite (flat_entities P _ p TM eq_refl) by (eapply Forall_impl; [|exact FN]; intros n [H _]; exact H).
      f_equal. cbn [ents_of flat_map app]. f_equal. unfold figure_entities. cbn [fst snd]. rewrite same_events by assumption. reflexivity.
    + right. split; [exact SP|]. eexists. split; [|reflexivity]. reflexivity.
Qed.
(** C30: a figure that does not raise emits the entities of the figures nested in its rows, in
    the order of the rows, then its own one, and nothing else; a splitting extractor may add
    those of the figure split off. *)
Theorem C30_order P doc m tbl : tame P -> processed P (figures doc) m tbl -> ~ figure_raises P (m, tbl) ->
  (exists hs, lookup_fig (p_fig_overrides P) (m_fig m) = None /\ table_headers tbl hs /\ unsupported hs /\ figure_entities P (m, tbl) = [])
  \/ exists x rows ok figs own rest, handled P m tbl x /\ table_rows tbl rows ok /\ table_figs x rows figs
       /\ Forall (fun n => ~ figure_raises P n) figs
       /\ en_meta own = m
       /\ figure_entities P (m, tbl) = flat_map (figure_entities P) figs ++ own :: rest
       /\ (rest = [] \/ splits P (m_fig m) /\ exists n, m_parent (fst n) = None /\ rest = figure_entities P n).
Proof.
  intros TM PR NR. destruct (order_of_rows P doc m tbl TM PR NR) as [H | (x & figs & own & rest & A & B & C)]; [left; exact H | right].
  exists x, (fst (row_iter tbl)), (ended (snd (row_iter tbl))), figs, own, rest. split; [exact A|]. split; [apply table_rows_ok | exact (conj B C)].
Qed.

(** C26, the rest: without --skip-figure-on-error a run that ends normally has no T1000; one
    that raises has exactly one, of the table that raised, unless that table has no row or
    its figure has an extractor of its own that does not recognise its columns. *)
Theorem C26_errors P doc r es : tame P -> p_skip P = false -> parse_doc P doc = (r, es) ->
  (r = Ok tt -> errors es = [])
  /\ (forall e, r = Exn e -> exists A t B ea et, figures doc = A ++ t :: B
        /\ parse_doc P (single t) = (Exn e, et) /\ es = ea ++ et /\ errors ea = []
        /\ ((List.length (errors et) = 1)%nat
            \/ errors et = [] /\ (rowless t \/ exists m tbl, identified t m tbl /\ unrecognised P m tbl))).
Proof.
  intros TM SK E. pose proof (figures_tables doc) as FT.
  assert (K : forall n ts es, Forall (fun t => e_tag t = t_table) ts -> in_order P n ts es -> errors es = []).
  { intros n ts es0 F IO. induction IO as [n | n t title ts es0 U IO IH | n t ts e es0 U ET IO IH]; [reflexivity | |].
    - apply Forall_cons_iff in F as [_ F]. exact (IH F).
    - apply Forall_cons_iff in F as [T F]. rewrite errors_app, (IH F), app_nil_r.
      destruct (table_cmp P t TM T) as (r0 & es1 & r1 & _ & E1 & _ & _ & _ & S & _ & _ & OKE & _).
      rewrite ET in E1. injection E1 as <- <-. apply OKE. symmetry. exact (S SK). }
  split.
  - intros ->. apply C23_concatenation in E. exact (K _ _ _ FT E).
  - intros e ->. apply C26_fail_fast in E as (A & t & B & ea & et & EF & IO & EU & ->); [|discriminate].
    rewrite EF in FT. apply Forall_app in FT as [FA FT]. apply Forall_inv in FT.
    exists A, t, B, ea, et. split; [exact EF|]. split; [exact EU|]. split; [reflexivity|]. split; [exact (K _ _ _ FA IO)|].
    destruct (table_cmp P t TM FT) as (r0 & es1 & r1 & _ & E1 & _ & _ & _ & S & _ & _ & _ & EXE).
    rewrite EU in E1. injection E1 as <- <-. symmetry in S. destruct (EXE e (S SK)) as [L | (L & _ & W)]; auto.
Qed.

Lemma entities_out P n : tame P -> named (fst n) -> figure_entities P n = ents_of (out (parse_figure (with_skip false P)) n).
Proof. intros TM NM. unfold figure_entities. rewrite same_events by assumption. destruct n. reflexivity. Qed.
Lemma errors_out P n : tame P -> named (fst n) -> figure_errors P n = errors (out (parse_figure (with_skip false P)) n).
Proof. intros TM NM. unfold figure_errors. rewrite same_events by assumption. destruct n. reflexivity. Qed.

Lemma failed_rows P doc m tbl : tame P -> processed P (figures doc) m tbl -> figure_raises P (m, tbl) ->
  (unrecognised P m tbl /\ figure_entities P (m, tbl) = [] /\ figure_errors P (m, tbl) = [])
  \/ (exists x a b figs, handled P m tbl x /\ fst (row_iter tbl) = a ++ b
       /\ Forall (fun n => ~ figure_raises P n) figs
       /\ ((table_figs x a figs
            /\ figure_entities P (m, tbl) = flat_map (figure_entities P) figs
            /\ figure_errors P (m, tbl) = [lint_T1000 m])
           \/ exists n rest, table_figs x a (figs ++ n :: rest) /\ figure_raises P n
               /\ figure_entities P (m, tbl) = flat_map (figure_entities P) figs ++ figure_entities P n
               /\ ((List.length (figure_errors P n) = 1)%nat /\ figure_errors P (m, tbl) = figure_errors P n
                   \/ figure_errors P n = [] /\ figure_errors P (m, tbl) = [lint_T1000 m])))
  \/ splits P (m_fig m).
Proof.
  intros TM PR RS. pose proof (processed_tame _ _ _ _ TM PR) as NM.
  assert (NE : outcome (parse_figure (with_skip false P)) (m, tbl) <> Ok tt) by (intros H; exact (not_raising _ _ H RS)).
  rewrite (entities_out P (m, tbl) TM NM), (errors_out P (m, tbl) TM NM).
  destruct (noskip_shape P (tame_sane _ TM) (S (esize tbl)) m tbl (Nat.lt_succ_diag_r _) (proj1 NM)) as [_ SH].
  set (p := parse_figure (with_skip false P)) in *.
  assert (OKV : forall n, named (fst n) -> outcome p n = Ok tt -> errors (out p n) = []).
  { intros [m1 t1] N1 O. destruct (noskip_shape P (tame_sane _ TM) (S (esize t1)) m1 t1 (Nat.lt_succ_diag_r _) (proj1 N1)) as [V _].
    fold p in V. unfold outcome in O. unfold out. cbn [fst snd] in *. destruct (p m1 t1 false) as [[r f] t]. cbn in O. subst r.
    destruct V as [_ [(_ & _ & V) | [(? & ? & ? & ? & _) | (? & _)]]]; [exact V | discriminate | discriminate]. }
  assert (OKS : forall x s, own_steps x s -> Forall (fun n => named (fst n)) (nests s) -> Forall (fun n => outcome p n = Ok tt) (nests s) -> errors (events_of p s) = []).
  { intros x s OS FN FO. rewrite errors_coded, (events_coded p x s T1000 OS) by (cbn; intuition discriminate).
    clear OS. induction (nests s) as [|n l IH]; [reflexivity|]. apply Forall_cons_iff in FN as [F1 F2]. apply Forall_cons_iff in FO as [O1 O2].
    cbn [flat_map]. rewrite (IH F2 O2), app_nil_r. exact (OKV n F1 O1). }
  clear RS. revert SH NE. generalize (outcome p (m, tbl)). generalize (out p (m, tbl)). intros oo oc SH NE.
  destruct SH as [t0 hs HL LK TH US | t0 HL MM | t0 x s evs ent HL HD OS TF FA CK | t0 x s evs ent m' tbl' tail r HL HD OS TF FA CK SP EX RR T1 T2 | t0 x s a b e HL HD OS AB TF FA | t0 x s s1 m1 tbl1 s2 a b e tail HL HD OS AB TF SS FA RE TT]; try congruence.
  - left. split; [apply mismatch_iff, MM|]. split; [exact (header_lints_ents _ _ HL)|]. apply (header_lints_coded m t0 T1000 HL). discriminate.
  - right. right. exact SP.
  - right. left. pose proof (figs_named x tbl a _ TF) as FN.
    assert (FN' : Forall (fun n => named (fst n)) (nests s)).
    { eapply Forall_impl; [|apply FN]; [intros n [H _]; exact H|]. intros y Hy. rewrite AB. apply in_or_app. left. exact Hy. }
    exists x, a, b, (nests s). split; [exact HD|]. split; [exact AB|].
    split; [eapply Forall_impl; [|exact FA]; intros n; apply not_raising|]. left. split; [exact TF|].
    rewrite !ents_of_app, (header_lints_ents _ _ HL), (events_ents p x s OS), (flat_entities P _ p TM eq_refl FN').
    split; [apply app_nil_r|]. rewrite !errors_app. rewrite (errors_coded t0), (header_lints_coded m t0 T1000 HL) by discriminate.
    rewrite (OKS x s OS FN' FA). reflexivity.
  - right. left. pose proof (figs_named x tbl a _ TF) as FN.
    assert (FN' : Forall (fun n => named (fst n)) (nests s)).
    { eapply Forall_impl; [|apply FN]; [intros n [H _]; exact H|]. intros y Hy. rewrite AB. apply in_or_app. left. exact Hy. }
    subst s. rewrite nests_app in FN', TF. cbn [nests flat_map app] in FN', TF. apply Forall_app in FN' as [FN1 FN2]. apply Forall_inv in FN2.
    assert (OS1 : own_steps x s1) by (intros ev Hev; apply OS, in_or_app; left; exact Hev).
    exists x, a, b, (nests s1). split; [exact HD|]. split; [exact AB|].
    split; [eapply Forall_impl; [|exact FA]; intros n; apply not_raising|]. right. exists (m1, tbl1), (nests s2). split; [exact TF|].
    split; [eapply raising, RE|]. rewrite (entities_out P (m1, tbl1) TM FN2), (errors_out P (m1, tbl1) TM FN2). fold p.
    rewrite !ents_of_app, (header_lints_ents _ _ HL), (events_ents p x s1 OS1), (flat_entities P _ p TM eq_refl FN1).
    rewrite !errors_app. rewrite (errors_coded t0), (header_lints_coded m t0 T1000 HL) by discriminate.
    rewrite (OKS x s1 OS1 FN1 FA). destruct TT as [(-> & L) | (-> & L)].
    + split; [cbn [app ents_of flat_map]; rewrite app_nil_r; reflexivity|]. left. split; [exact L|]. apply app_nil_r.
    + split; [cbn [app ents_of flat_map]; rewrite app_nil_r; reflexivity|]. right. split; [exact L|]. rewrite L. reflexivity.
Qed.
(** C25: a figure that raises. Of its rows only some first ones [a] were processed, and
    either all the figures nested in these were completed and the figure itself raised, or
    one nested figure raised. The entities kept are those of the completed nested figures
    (and what the one that raised kept), in the order of the rows; the T1000 names the figure
    itself, or the nested figure that raised. *)
Theorem C25_failed P doc m tbl : tame P -> processed P (figures doc) m tbl -> figure_raises P (m, tbl) ->
  (unrecognised P m tbl /\ figure_entities P (m, tbl) = [] /\ figure_errors P (m, tbl) = [])
  \/ (exists x a b ok figs, handled P m tbl x /\ table_rows tbl (a ++ b) ok
       /\ Forall (fun n => ~ figure_raises P n) figs
       /\ ((table_figs x a figs
            /\ figure_entities P (m, tbl) = flat_map (figure_entities P) figs
            /\ figure_errors P (m, tbl) = [lint_T1000 m])
           \/ exists n rest, table_figs x a (figs ++ n :: rest) /\ figure_raises P n
               /\ figure_entities P (m, tbl) = flat_map (figure_entities P) figs ++ figure_entities P n
               /\ ((List.length (figure_errors P n) = 1)%nat /\ figure_errors P (m, tbl) = figure_errors P n
                   \/ figure_errors P n = [] /\ figure_errors P (m, tbl) = [lint_T1000 m])))
  \/ splits P (m_fig m).
Proof.
  intros TM PR RS. destruct (failed_rows P doc m tbl TM PR RS) as [H | [(x & a & b & figs & A & B & C) | H]]; [left; exact H | right; left | right; right; exact H].
  exists x, a, b, (ended (snd (row_iter tbl))), figs. split; [exact A|]. split; [rewrite <- B; apply table_rows_ok | exact C].
Qed.

(** What nested figures emit has a parent. *)
Lemma nested_parents P : tame P -> forall n m tbl, (esize tbl < n)%nat -> named m -> m_parent m <> None ->
  Forall (fun e => m_parent (en_meta e) <> None) (ents_of (out (parse_figure (with_skip false P)) (m, tbl))).
Proof.
  intros TM. induction n as [|n IH]; intros m tbl Hs NM NP; [lia|].
  destruct (noskip_shape P (tame_sane _ TM) (S (esize tbl)) m tbl (Nat.lt_succ_diag_r _) (proj1 NM)) as [_ SH].
  set (p := parse_figure (with_skip false P)) in *.
  assert (K : forall x s, own_steps x s -> Forall (fun k => named (fst k) /\ m_parent (fst k) <> None /\ (esize (snd k) < esize tbl)%nat) (nests s) ->
     Forall (fun e => m_parent (en_meta e) <> None) (ents_of (events_of p s))).
  { intros x s OS F. rewrite (events_ents p x s OS). clear OS. induction F as [|[m1 t1] l (F1 & F2 & F3) F IHF]; [constructor|].
    cbn [flat_map]. apply Forall_app. split; [|exact IHF]. apply IH; [cbn in F3; lia | exact F1 | exact F2]. }
  revert SH. generalize (outcome p (m, tbl)). generalize (out p (m, tbl)). intros oo oc SH.
  destruct SH as [t0 hs HL LK TH US | t0 HL MM | t0 x s evs ent HL HD OS TF FA CK | t0 x s evs ent m' tbl' tail r HL HD OS TF FA CK SP EX RR T1 T2 | t0 x s a b e HL HD OS AB TF FA | t0 x s s1 m1 tbl1 s2 a b e tail HL HD OS AB TF SS FA RE TT].
  - rewrite ents_of_app, (header_lints_ents _ _ HL). constructor.
  - rewrite (header_lints_ents _ _ HL). constructor.
  - rewrite !ents_of_app, (header_lints_ents _ _ HL), (checked_ents _ _ _ CK). apply Forall_app. split; [constructor|].
    apply Forall_app. split; [eapply K; [exact OS | exact (figs_named x tbl _ _ TF (fun _ H => H))]|].
    cbn. constructor; [|constructor]. destruct CK as [-> _]. destruct HD as (<- & _). exact NP.
  - exfalso. destruct SP as (c & prefix & fig' & L & HC). apply lookup_named in L. destruct (TM _ _ _ _ L HC) as (_ & N95 & _).
    exact (N95 (proj2 NM NP)).
  - rewrite !ents_of_app, (header_lints_ents _ _ HL). cbn [app ents_of flat_map]. rewrite app_nil_r. eapply K; [exact OS|].
    apply (figs_named x tbl a _ TF). intros y Hy. rewrite AB. apply in_or_app. left. exact Hy.
  - assert (F : Forall (fun k => named (fst k) /\ m_parent (fst k) <> None /\ (esize (snd k) < esize tbl)%nat) (nests s)).
    { apply (figs_named x tbl a _ TF). intros y Hy. rewrite AB. apply in_or_app. left. exact Hy. }
    subst s. rewrite nests_app in F. apply Forall_app in F as [F1 F2]. cbn [nests flat_map app] in F2. apply Forall_inv in F2 as (G1 & G2 & G3). cbn in G3.
    rewrite !ents_of_app, (header_lints_ents _ _ HL). cbn [app]. apply Forall_app. split; [eapply K; [|exact F1]; intros ev Hev; apply OS, in_or_app; left; exact Hev|].
    apply Forall_app. split; [apply IH; [lia | exact G1 | exact G2]|]. destruct TT as [[-> _] | [-> _]]; constructor.
Qed.

(** A top-level figure that raises emits no entity of its own: all it emits belongs to nested
    figures. *)
Theorem C25_no_own_entity P t m tbl es : tame P -> e_tag t = t_table -> identified t m tbl -> ~ splits P (m_fig m) ->
  raises P t -> snd (parse_doc P (single t)) = es ->
  forall e, In (EvEnt e) es -> m_parent (en_meta e) <> None.
Proof.
  intros TM T ID NS (ex & ees & RS) EE e He.
  destruct (identified_named _ _ _ ID) as [H1 H2].
  assert (NM : named m) by (split; [exact H1 | congruence]).
  destruct (classify_iff t) as (_ & _ & _ & CF). apply CF in ID as CID.
  rewrite (single_run P t T), CID in EE. cbn [fst snd] in EE. subst es. unfold out in He. cbn [fst snd] in He.
  apply In_ents_of in He. change (In e (figure_entities P (m, tbl))) in He.
  assert (PR : processed P (figures (single t)) m tbl).
  { apply (pr_top _ _ t); [|apply identified_iff; exact CID]. rewrite (figures_single _ T). left. reflexivity. }
  assert (FR : figure_raises P (m, tbl)).
  { rewrite (single_run _ t T), CID in RS. injection RS as RS _. unfold outcome in RS. cbn [fst snd] in RS.
    unfold figure_raises. cbn [fst snd]. destruct (parse_figure (no_skip P) m tbl false) as [[r f] q]. cbn in RS. subst r. eauto. }
  assert (NP : forall x a figs, (forall y, In y a -> In y (fst (row_iter tbl))) -> table_figs x a figs -> Forall (fun n => Forall (fun e => m_parent (en_meta e) <> None) (figure_entities P n)) figs).
  { intros x a figs HA TF. eapply Forall_impl; [|exact (figs_named x tbl a figs TF HA)]. intros [m1 t1] (N1 & N2 & _). cbn [fst] in N1, N2.
    unfold figure_entities. cbn [fst snd]. rewrite same_events by assumption. eapply nested_parents; [exact TM | apply Nat.lt_succ_diag_r | exact N1 | exact N2]. }
  assert (FM : forall figs, Forall (fun n => Forall (fun e => m_parent (en_meta e) <> None) (figure_entities P n)) figs -> In e (flat_map (figure_entities P) figs) -> m_parent (en_meta e) <> None).
  { intros figs F I. apply in_flat_map in I as (n & I1 & I2). rewrite Forall_forall in F. specialize (F n I1). rewrite Forall_forall in F. exact (F e I2). }
  destruct (failed_rows P _ m tbl TM PR FR) as [(_ & EN & _) | [(x & a & b & figs & HD & AB & FN & [(TF & EN & _) | (n & rest & TF & _ & EN & _)]) | SP]]; [| | |contradiction].
  - rewrite EN in He. destruct He.
  - rewrite EN in He. eapply FM; [|exact He]. eapply NP; [|exact TF]. intros y Hy. rewrite AB. apply in_or_app. auto.
  - pose proof (NP x a _ (fun y Hy => eq_ind_r (fun l => In y l) (in_or_app a b y (or_introl Hy)) AB) TF) as F.
    rewrite EN in He. apply (FM (figs ++ [n])).
    + apply Forall_app in F as [F1 F2]. apply Forall_app. split; [exact F1|]. apply Forall_cons_iff in F2 as [F2 _]. constructor; [exact F2 | constructor].
    + rewrite flat_map_app. cbn [flat_map]. rewrite app_nil_r. exact He.
Qed.

(** C30: what a sub-entity carries. *)
Definition entity_of (P : parser) (ent : entity) (tbl : elem) : Prop :=
  exists x rows ok, handled P (en_meta ent) tbl x /\ table_rows tbl rows ok
    /\ match en_body ent with
       | BStruct k fields => ec_kind (x_cls x) = EKStruct k
           /\ exists fs, rows_give x false rows fs /\ fields = emitted_order k fs
       | BValues fields => ec_kind (x_cls x) = EKValues /\ vrows_give (p_label_overrides P) x rows fields
       end.

Theorem C30_sub P doc r es ent : sane P -> parse_doc P doc = (r, es) -> In (EvEnt ent) es ->
  match m_parent (en_meta ent) with
  | None => exists tbl, processed P (figures doc) (en_meta ent) tbl /\ entity_of P ent tbl
  | Some f => exists m tbl x rows ok y content key sub,
      processed P (figures doc) m tbl /\ m_fig m = f /\ handled P m tbl x
      /\ table_rows tbl rows ok /\ In y rows /\ key_of_row x (y_row y) content key /\ In sub (children t_table content)
      /\ m_fig (en_meta ent) = f ++ utf8 "_" ++ key
      /\ entity_of P ent sub
  end.
Proof.
  intros SP E I. destruct (doc_origin P doc r es SP E) as [A _]. specialize (A _ I).
  assert (K : exists tbl, processed P (figures doc) (en_meta ent) tbl /\ entity_of P ent tbl).
  { destruct A as [m tbl x k fs PR HD EK RG _ _ _ | m tbl x fs PR HD EK RG _ _]; exists tbl; (split; [exact PR|]); exists x, (fst (row_iter tbl)), (ended (snd (row_iter tbl))); (split; [exact HD|]); (split; [apply table_rows_ok|]); cbn; (split; [exact EK|]); [eauto | exact RG]. }
  destruct (m_parent (en_meta ent)) as [f|] eqn:MP; [|exact K]. destruct K as (tbl & PR & EO).
  inversion PR as [t m tb I1 C | m tb x rs ok y content key sub PR' HD HT HY HK HS EM | m tb x rs ok y m' tbl' PR' HD HT HY HE]; subst.
  - apply identified_iff, classify_figure in C as (_ & C & _). congruence.
  - rewrite <- EM in MP. injection MP as MP. exists m, tb, x, rs, ok, y, content, key, tbl. cbn [m_fig sub_meta]. rewrite MP.
    refine (conj PR' (conj eq_refl (conj HD (conj HT (conj HY (conj HK (conj HS (conj eq_refl _)))))))). exact EO.
  - exfalso. apply table_rows_iff in HT as [-> _]. destruct (extra_meta P m tb x [(en_meta ent, tbl)] HD) as [EX | (prefix & fig' & title & tbl2 & _ & [= EM _] & _)]; [eapply extra_splits; eassumption | discriminate |].
    rewrite EM in MP. discriminate.
Qed.

(** ** Examples *)
Local Open Scope string_scope.
Local Open Scope list_scope.
Definition d_nest (s : string) (ts : list elem) : kid :=
  (Elem t_td [] [] ((Elem t_p [] (utf8 s) [], []) :: map (fun t => (t, [])) ts), []).
Definition d_sub : elem := d_table
  [d_row [d_head "Bits"; d_head "Description"]; d_cells ["7:0"; "Inner (INN): The inner."]].
(** a row lacks its third cell *)
Definition d_sub_bad : elem := d_table
  [d_row [d_head "Bits"; d_head "Type"; d_head "Description"]; d_cells ["7:0"; "RO"]].
Definition d_fig (title : string) (rows : list kid) : elem :=
  d_table (d_cells [title] :: d_row [d_head "Bits"; d_head "Description"] :: rows).
Definition doc_good : elem := d_fig "Figure 3: G"
  [d_row [d_cell "15:8"; d_nest "Outer (OUT): o." [d_sub; d_sub]]; d_cells ["7:0"; "Low (LOW): l."]].
(** the second nested table raises *)
Definition doc_bad : elem := d_fig "Figure 4: H"
  [d_row [d_cell "15:8"; d_nest "Outer (OUT): o." [d_sub; d_sub_bad]]; d_cells ["7:0"; "Low (LOW): l."]].
Definition doc_noid : elem := d_fig "Figure: N" [].
Definition doc_text : elem := d_fig "Legend" [].

Definition brief_event (e : event) : bool * (str * option str) :=
  match e with
  | EvEnt e => (true, (m_fig (en_meta e), m_parent (en_meta e)))
  | EvLint l => (false, (l_fig l, Some (code_name (l_code l))))
  end.
Definition brief_run (P : parser) (doc : elem) : res unit * list (bool * (str * option str)) :=
  (fst (parse_doc P doc), map brief_event (snd (parse_doc P doc))).

(** With --skip-figure-on-error: figure 4 is cut short by its nested figure. *)
Example skip_sample :
  brief_run sample_parser (d_doc [doc_good; doc_noid; doc_bad; doc_text; doc_noid]) =
  (Ok tt, [(true, (utf8 "3_8", Some (utf8 "3"))); (true, (utf8 "3_8", Some (utf8 "3"))); (true, (utf8 "3", None));
           (false, (utf8 "FIG_ID_MISSING[0]", Some (utf8 "T1008")));
           (true, (utf8 "4_8", Some (utf8 "4"))); (false, (utf8 "4_8", Some (utf8 "T1000")));
           (false, (utf8 "FIG_ID_MISSING[1]", Some (utf8 "T1008")))]).
Proof. vm_compute. reflexivity. Qed.
(** Without it the run ends there. *)
Example fail_sample :
  brief_run (no_skip sample_parser) (d_doc [doc_good; doc_noid; doc_bad; doc_text; doc_noid]) =
  (Exn EXPath, [(true, (utf8 "3_8", Some (utf8 "3"))); (true, (utf8 "3_8", Some (utf8 "3"))); (true, (utf8 "3", None));
           (false, (utf8 "FIG_ID_MISSING[0]", Some (utf8 "T1008")));
           (true, (utf8 "4_8", Some (utf8 "4"))); (false, (utf8 "4_8", Some (utf8 "T1000")))]).
Proof. vm_compute. reflexivity. Qed.
Example sample_tame : tame sample_parser. Proof. intros ? ? ? ? []. Qed.
Example bad_raises : raises sample_parser doc_bad.
Proof. exists EXPath. eexists. vm_compute. reflexivity. Qed.
Example good_does_not : ~ raises sample_parser doc_good.
Proof. intros (e & es & H). assert (K : fst (parse_doc (no_skip sample_parser) (single doc_good)) = Ok tt) by (vm_compute; reflexivity). rewrite H in K. discriminate. Qed.
Example noid_unidentified : unidentified doc_noid (utf8 "Figure: N").
Proof. pose proof (classify_spec doc_noid) as H. vm_compute in H. exact H. Qed.
Example text_untitled : untitled doc_text.
Proof. pose proof (classify_spec doc_text) as H. vm_compute in H. exact H. Qed.
Example bad_identified : exists tbl, identified doc_bad (mkMeta (Some (utf8 "Figure 4: H")) (utf8 "4") None) tbl /\ ~ splits sample_parser (utf8 "4").
Proof.
  eexists. split; [pose proof (classify_spec doc_bad) as H; vm_compute in H; exact H|].
  intros (? & ? & ? & H & _). discriminate.
Qed.

(** C24: it does abort in the two cases excepted. *)
Definition kv_parser : parser := mkParser true (fst NvmKv1_0c) (snd NvmKv1_0c).
Theorem C24_aborts_refuted :
  (exists t, rowless t /\ fst (parse_doc sample_parser (d_doc [t])) = Exn EXPath)
  /\ (exists t, (forall u, In u (figures (d_doc [t])) -> ~ rowless u) /\ fst (parse_doc kv_parser (d_doc [t])) = Exn ERuntime).
Proof.
  split.
  - exists (d_table []). split; [|vm_compute; reflexivity]. pose proof (classify_spec (d_table [])) as H. vm_compute in H. exact H.
  - exists (d_fig "Figure 41: C" [d_cells ["3"; "x"]]). split; [|vm_compute; reflexivity].
    intros u [<- | []] R. destruct (classify_iff (d_fig "Figure 41: C" [d_cells ["3"; "x"]])) as (_ & CR & _).
    apply CR in R. vm_compute in R. discriminate.
Qed.

(** C31: the figure ids of a document's entities are not distinct: two tables in one cell, two
    rows with one key, two figures with one id. *)
Theorem C31_refuted :
  exists doc a b c e1 e2, parse_doc sample_parser doc = (Ok tt, a ++ EvEnt e1 :: b ++ EvEnt e2 :: c)
    /\ m_fig (en_meta e1) = m_fig (en_meta e2) /\ m_parent (en_meta e1) = Some (utf8 "3").
Proof.
  exists (d_doc [doc_good]), [], []. do 3 eexists. split; [vm_compute; reflexivity|]. split; reflexivity.
Qed.
Definition d_sub2 : elem := d_table
  [d_row [d_head "Value"; d_head "Description"]; d_cells ["1"; "One: x"]].
Theorem C31_rows_refuted :
  exists doc a b c e1 e2, parse_doc sample_parser doc = (Ok tt, a ++ EvEnt e1 :: b ++ EvEnt e2 :: c)
    /\ m_fig (en_meta e1) = m_fig (en_meta e2) /\ m_parent (en_meta e1) = Some (utf8 "3")
    /\ en_body e1 <> en_body e2.
Proof.
  exists (d_doc [d_fig "Figure 3: G" [d_row [d_cell "7:0"; d_nest "Outer (OUT): o." [d_sub]];
                                       d_row [d_cell "7:0"; d_nest "Other (OTH): o." [d_sub2]]]]), [], [].
  do 3 eexists. split; [vm_compute; reflexivity|]. split; [reflexivity|]. split; [reflexivity|]. cbn. discriminate.
Qed.

Print Assumptions C23_concatenation.
Print Assumptions C23_replacement.
Print Assumptions C24_abort.
Print Assumptions C24_finishes.
Print Assumptions C24_exceptions.
Print Assumptions C24_aborts_refuted.
Print Assumptions C25_one_error.
Print Assumptions C25_document.
Print Assumptions C25_failed.
Print Assumptions C25_no_own_entity.
Print Assumptions C26_fail_fast.
Print Assumptions C26_errors.
Print Assumptions C28_numbering.
Print Assumptions C28_distinct.
Print Assumptions C28_untitled.
Print Assumptions C30_order.
Print Assumptions C30_sub.
Print Assumptions C31_refuted.
Print Assumptions C31_rows_refuted.
Print Assumptions C37_terminates.
Print Assumptions C37_any_depth.
Print Assumptions tame_parsers.
