(** C77: every figure that can be read is in the output, and what keeps a figure from being
    read.  The vocabulary is in SpecReads.v. *)
From Coq Require Import NArith ZArith List Bool String Lia ZifyBool ZifyN.
From Verif Require Import PyTables PyStr PyStrFacts Regex Regexes Xml Json Lint RowIter Helpers Extract Document
  RegexFacts MFacts SpecText SpecFields SpecLabel SpecHeader SpecRows SpecTable SpecDoc SpecRun SpecReads SpecIter IterProofs ReadForms
  RangeProofs LabelProofs ValidateProofs RowProofs HeaderProofs TableProofs SizeProofs Prop_Header DocProofs DocFlow DocRuns
  Prop_Table Prop_Doc ReadProofs ReadFigs SpecNames NameProofs CellRead.
Import ListNotations.
Local Open Scope list_scope.
Local Open Scope N_scope.

(** All parsers the program can choose have struct extractors of their own only. *)
Theorem struct_parsers skip key rev : struct_overrides (get_parser skip key rev).
Proof.
  unfold get_parser. destruct (find _ QUIRKS_MAP) as [[k [lo fo]]|] eqn:F; [|intros ? ? []].
  apply find_some in F as [F _]. cbn [QUIRKS_MAP In] in F.
  repeat (destruct F as [F | F]; [injection F as <- <- <-; intros fig c H1; cbn in H1;
    repeat (destruct H1 as [H1 | H1]; [injection H1 as <- <-; discriminate|]); destruct H1|]).
  destruct F.
Qed.

(** ** Nested figures of a part of the rows *)
Lemma row_figs_fun x dyn y a b : row_figs x dyn y a -> row_figs x dyn y b -> a = b.
Proof.
  intros [(k & c & l & rg & RC & S1 & S2 & S3 & R & ->) | (N & ->)] [(k' & c' & l' & rg' & RC' & S1' & S2' & S3' & R' & ->) | (N' & ->)].
  - destruct (row_cells_fun _ _ _ _ _ _ _ _ RC RC') as (<- & <- & <-).
    assert (rg = rg') as <- by (destruct dyn; [eapply reads_formula_fun | eapply reads_numbers_fun]; eassumption). reflexivity.
  - destruct (N' _ _ _ RC) as [X|[X|X]]; contradiction.
  - destruct (N _ _ _ RC') as [X|[X|X]]; contradiction.
  - reflexivity.
Qed.
Lemma vrow_figs_fun x y a b : vrow_figs x y a -> vrow_figs x y b -> a = b.
Proof.
  intros [(k & c & RC & E & ->) | (N & ->)] [(k' & c' & RC' & E' & ->) | (N' & ->)].
  - destruct (value_cells_fun _ _ _ _ _ _ RC RC') as (<- & <-). reflexivity.
  - destruct (E (N' _ _ RC)).
  - destruct (E' (N _ _ RC')).
  - reflexivity.
Qed.
Lemma rows_figs_prefix x dyn a figs : rows_figs x dyn a figs -> forall b all, rows_figs x dyn (a ++ b) all -> incl figs all.
Proof.
  induction 1 as [dyn | dyn y rest figs H R IH | dyn y rest f g H NE RF R IH | dyn y rest H E]; intros b all A n I; cbn [app] in A; try (destruct I; fail).
  - inversion A; subst; try contradiction. eapply IH; eassumption.
  - inversion A; subst; try contradiction. match goal with K : row_figs _ _ _ _ |- _ => rewrite (row_figs_fun _ _ _ _ _ RF K) in I end. apply in_or_app. apply in_app_or in I as [I|I]; [left; exact I|].
    right. eapply IH; eassumption.
Qed.
Lemma vrows_figs_prefix x a figs : vrows_figs x a figs -> forall b all, vrows_figs x (a ++ b) all -> incl figs all.
Proof.
  induction 1 as [| y rest figs H R IH | y rest f g H NE RF R IH | y rest H E]; intros b all A n I; cbn [app] in A; try (destruct I; fail).
  - inversion A; subst; try contradiction. eapply IH; eassumption.
  - inversion A; subst; try contradiction. match goal with K : vrow_figs _ _ _ |- _ => rewrite (vrow_figs_fun _ _ _ _ RF K) in I end. apply in_or_app. apply in_app_or in I as [I|I]; [left; exact I|].
    right. eapply IH; eassumption.
Qed.
Lemma nested_all x tbl n figs : nested_figure x tbl n -> table_figs x (fst (row_iter tbl)) figs -> In n figs.
Proof.
  intros NF A. apply nested_form in NF as (a & b & fs & E & TF & I). rewrite E in A. unfold table_figs in *. destruct (ec_kind (x_cls x)).
  - exact (rows_figs_prefix _ _ _ _ TF _ _ A _ I).
  - exact (vrows_figs_prefix _ _ _ TF _ _ A _ I).
Qed.
Lemma nested_facts x tbl n : nested_figure x tbl n ->
  named (fst n) /\ m_parent (fst n) <> None /\ (esize (snd n) < esize tbl)%nat.
Proof.
  intros NF. apply nested_form in NF as (a & b & figs & E & TF & I). pose proof (figs_named x tbl _ _ TF) as FN. rewrite E in FN.
  specialize (FN (fun y H => in_or_app _ _ _ (or_introl H))). rewrite Forall_forall in FN. exact (FN n I).
Qed.
Lemma nested_splits P x tbl n : tame P -> nested_figure x tbl n -> ~ splits P (m_fig (fst n)).
Proof.
  intros TM NF (c & prefix & fig' & L & H). apply nested_facts in NF as (N1 & N2 & _).
  destruct (TM _ _ _ _ (lookup_named _ _ _ L) H) as (_ & F & _). exact (F (proj2 N1 N2)).
Qed.

Lemma nested_quiet P m tbl x n : tame P -> struct_overrides P -> named m -> handled P m tbl x ->
  ~ figure_raises P (m, tbl) -> nested_figure x tbl n -> ~ figure_raises P n.
Proof.
  intros TM SO NM HD NR NF. destruct (noskip_shape P (tame_sane _ TM) (S (esize tbl)) m tbl (Nat.lt_succ_diag_r _) (proj1 NM)) as [_ SH].
  set (p := parse_figure (with_skip false P)) in *.
  assert (NE : forall e, outcome p (m, tbl) <> Exn e) by (intros e H; exact (NR (raising _ _ _ H))).
  clear NR. revert SH NE. generalize (outcome p (m, tbl)). generalize (out p (m, tbl)). intros oo oc SH NE.
  destruct SH as [t0 hs HL LK TH US | t0 HL MM | t0 x' s evs ent HL HD' OS TF FA CK | t0 x' s evs ent m' tbl' tail r HL HD' OS TF FA CK SP EX RR T1 T2 | t0 x' s a b e HL HD' OS AB TF FA | t0 x' s s1 m1 tbl1 s2 a b e tail HL HD' OS AB TF SS FA RE TT]; try (destruct (NE _ eq_refl)).
  - exfalso. destruct HD as (_ & hs' & TH' & CH & _). rewrite (table_headers_fun _ _ _ TH' TH) in CH. unfold chosen in CH. rewrite LK in CH.
    destruct US as (A & B & C). tauto.
  - rewrite <- (handled_fun _ _ _ _ _ SO HD HD') in TF. pose proof (nested_all _ _ _ _ NF TF) as I. rewrite Forall_forall in FA. apply not_raising, FA, I.
  - rewrite <- (handled_fun _ _ _ _ _ SO HD HD') in TF. pose proof (nested_all _ _ _ _ NF TF) as I. rewrite Forall_forall in FA. apply not_raising, FA, I.
Qed.
Lemma raises_dec P m tbl : tame P -> m_fig m <> [] -> figure_raises P (m, tbl) \/ ~ figure_raises P (m, tbl).
Proof.
  intros TM Hm. destruct (noskip_shape P (tame_sane _ TM) (S (esize tbl)) m tbl (Nat.lt_succ_diag_r _) Hm) as [V _].
  unfold verdict in V. unfold figure_raises. change (no_skip P) with (with_skip false P). cbn [fst snd].
  destruct (parse_figure (with_skip false P) m tbl false) as [[r f] t]. destruct r as [[]|e|]; [right | left; eauto | right]; intros (? & ? & ? & X); discriminate.
Qed.

(** ** The theorems *)

(** A figure whose rows give fields and come to an end, and whose nested figures do not raise,
    is emitted with exactly those fields. *)
Theorem C77_emitted P doc m tbl x b : tame P -> struct_overrides P -> processed P (figures doc) m tbl ->
  handled P m tbl x -> table_gives P x tbl b -> comes_to_end x tbl ->
  (forall n, nested_figure x tbl n -> ~ figure_raises P n) ->
  In (mkEntity m b) (figure_entities P (m, tbl)) /\ (~ splits P (m_fig m) -> ~ figure_raises P (m, tbl)).
Proof.
  intros TM SO PR HD TG CE NN. pose proof (processed_tame _ _ _ _ TM PR) as NM.
  destruct (figure_reads P TM SO m tbl x b NM HD TG CE NN) as [IE NR]. split; [|exact NR].
  unfold figure_entities. cbn [fst snd]. rewrite same_events by assumption. apply In_ents_of. exact IE.
Qed.

(** A table gives fields and comes to its end, or there is an obstacle: never both. *)
Theorem C77_obstacle P m tbl x : handled P m tbl x -> m_fig m <> [] ->
  (obstacle P x tbl <-> ~ (exists b, table_gives P x tbl b /\ comes_to_end x tbl))
  /\ (forall b b', table_gives P x tbl b -> table_gives P x tbl b' -> b = b').
Proof.
  intros HD Hm. assert (Hx : x_fig x <> []) by (unfold x_fig; rewrite (proj1 HD); exact Hm). split; [|apply gives_fun]. split.
  - intros O (b & G & E). exact (gives_obstacle _ _ _ _ G E O).
  - intros N. destruct (call_quiet P x tbl false Hx) as [(b & t & _ & _ & G & E) | (e & t & _ & O)]; [destruct N; eauto | exact O].
Qed.

(** What makes the extraction of a figure raise: an obstacle, or a figure nested in it. *)
Theorem C77_causes P doc m tbl x : tame P -> struct_overrides P -> processed P (figures doc) m tbl ->
  handled P m tbl x -> ~ splits P (m_fig m) ->
  (figure_raises P (m, tbl) <-> obstacle P x tbl \/ exists n, nested_figure x tbl n /\ figure_raises P n).
Proof.
  intros TM SO PR HD NS. pose proof (processed_tame _ _ _ _ TM PR) as NM. split.
  - intros FR. destruct (figure_causes P SO m tbl x NM HD FR) as [O | [N | S]]; [left; exact O | right; exact N | contradiction].
  - intros [O | (n & NF & FR)]; [exact (figure_obstacle P TM SO m tbl x NM HD O)|].
    destruct (raises_dec P m tbl TM (proj1 NM)) as [R|R]; [exact R|]. destruct (nested_quiet _ _ _ _ _ TM SO NM HD R NF FR).
Qed.

(** A figure (that splits off no other) is extracted without an exception exactly if it is
    readable. *)
Lemma readable_named P : tame P -> struct_overrides P -> forall k m tbl, (esize tbl < k)%nat -> named m -> ~ splits P (m_fig m) ->
  (~ figure_raises P (m, tbl) <-> readable P (m, tbl)).
Proof.
  intros TM SO. induction k as [|k IH]; intros m tbl LT NM NS; [lia|].
  assert (IN : forall x n, nested_figure x tbl n -> (~ figure_raises P n <-> readable P n)).
  { intros x [m' t'] NF. pose proof (nested_facts _ _ _ NF) as (N1 & N2 & N3). apply IH; [cbn in N3; lia | exact N1 | exact (nested_splits P _ _ _ TM NF)]. }
  split.
  - intros NR. destruct (figure_flow P m tbl (proj1 NM)) as (t0 & HL & [(hs & LK & TH & US & E) | [(MM & E) | (x & HD & E)]]).
    + eapply rd_columns; eassumption.
    + exfalso. apply NR. exists ERuntime, false, t0. exact (E false false).
    + assert (Hx : x_fig x <> []) by (unfold x_fig; rewrite (proj1 HD); exact (proj1 NM)).
      destruct (call_quiet P x tbl false Hx) as [(b & t & _ & _ & G & EN) | (e & t & _ & O)].
      * eapply rd_table; [exact HD | exact G | exact EN|]. intros n NF. apply (IN x n NF). exact (nested_quiet _ _ _ _ _ TM SO NM HD NR NF).
      * destruct (NR (figure_obstacle P TM SO m tbl x NM HD O)).
  - intros R. inversion R as [m0 tbl0 hs LK TH US | m0 tbl0 x b HD TG CE NN]; subst.
    + destruct (figure_flow P m tbl (proj1 NM)) as (t0 & HL & [(hs' & _ & _ & _ & E) | [((c & ? & LK' & _) & _) | (x & HD & E)]]).
      * intros (e & f & es & X). change (no_skip P) with (with_skip false P) in X. cbn [fst snd] in X. rewrite (E false false) in X. discriminate.
      * congruence.
      * exfalso. destruct HD as (_ & hs' & TH' & CH & _). rewrite (table_headers_fun _ _ _ TH' TH) in CH. unfold chosen in CH. rewrite LK in CH.
        destruct US as (A & B & C). tauto.
    + apply (figure_reads P TM SO m tbl x b NM HD TG CE); [|exact NS]. intros n NF. apply (IN x n NF). exact (NN n NF).
Qed.
Theorem C77_readable P doc m tbl : tame P -> struct_overrides P -> processed P (figures doc) m tbl -> ~ splits P (m_fig m) ->
  (~ figure_raises P (m, tbl) <-> readable P (m, tbl)).
Proof. intros TM SO PR NS. apply (readable_named P TM SO (S (esize tbl))); [lia | exact (processed_tame _ _ _ _ TM PR) | exact NS]. Qed.

(** All entities of a run that ends normally: every table with a title that names a figure, whose
    rows give fields to their end and whose nested figures are readable, is in the output with
    these fields. *)
Lemma order_part P t e ts : forall n es, in_order P n ts es -> In t ts -> (forall title, ~ unidentified t title) ->
  snd (parse_doc P (single t)) = e -> incl e es.
Proof.
  intros n es H. induction H as [n | n u title ts es U H IH | n u ts e' es U R H IH]; intros I N E; [destruct I | |].
  - destruct I as [-> | I]; [destruct (N _ U)|]. intros v K. right. exact (IH I N E v K).
  - destruct I as [-> | I].
    + rewrite R in E. cbn in E. subst e'. intros v K. apply in_or_app. left. exact K.
    + intros v K. apply in_or_app. right. exact (IH I N E v K).
Qed.
Lemma document_part P doc es t m tbl en : parse_doc P doc = (Ok tt, es) -> In t (figures doc) -> identified t m tbl ->
  In en (figure_entities P (m, tbl)) -> In (EvEnt en) es.
Proof.
  intros RUN IT ID IE. destruct (classify_iff t) as (CI & _ & _ & CF). apply CF in ID.
  apply C23_concatenation in RUN. apply (order_part P t (snd (parse_doc P (single t))) _ _ _ RUN IT); [|reflexivity|].
  - intros title U. rewrite (CI _ U) in ID. discriminate.
  - assert (TT : e_tag t = t_table) by (pose proof (figures_tables doc) as F; rewrite Forall_forall in F; exact (F t IT)).
    rewrite (single_run P t TT), ID. cbn [snd]. apply In_ents_of. exact IE.
Qed.
Theorem C77_document P doc es t m tbl x b : tame P -> struct_overrides P ->
  parse_doc P doc = (Ok tt, es) -> In t (figures doc) -> identified t m tbl ->
  handled P m tbl x -> table_gives P x tbl b -> comes_to_end x tbl ->
  (forall n, nested_figure x tbl n -> readable P n) ->
  In (EvEnt (mkEntity m b)) es.
Proof.
  intros TM SO RUN IT ID HD TG CE NN. apply (document_part P doc es t m tbl _ RUN IT ID). destruct (classify_iff t) as (_ & _ & _ & CF). apply CF in ID.
  assert (PR : processed P (figures doc) m tbl) by (eapply pr_top; [eassumption | apply identified_iff; eassumption]).
  eapply C77_emitted; try eassumption. intros [m' t'] NF. apply (readable_named P TM SO (S (esize t'))); [lia | exact (proj1 (nested_facts _ _ _ NF)) | exact (nested_splits P _ _ _ TM NF) | exact (NN _ NF)].
Qed.

(** With --skip-figure-on-error the run always ends normally unless a table has no row or a
    document's own extractor does not recognise the columns (C24): so no other figure of the
    document can keep a readable one out of the output. *)

(** ** Examples *)
Local Open Scope string_scope.
Local Open Scope list_scope.
Example sample_struct : struct_overrides sample_parser. Proof. intros ? ? []. Qed.

(** Figure 3 (with two nested figures) meets the hypotheses of C77_document, beside a figure
    that cannot be read. *)
Definition rd_doc : elem := d_doc [doc_bad; doc_good; doc_noid].
Definition good_meta : meta := mkMeta (Some (utf8 "Figure 3: G")) (utf8 "3") None.
Definition good_table : elem := match classify doc_good with FFigure _ tbl => tbl | _ => doc_good end.
Lemma good_quiet : ~ figure_raises sample_parser (good_meta, good_table).
Proof. apply not_raising. vm_compute. reflexivity. Qed.
Example C77_ex : exists es x b, parse_doc sample_parser rd_doc = (Ok tt, es)
  /\ In doc_good (figures rd_doc) /\ identified doc_good good_meta good_table
  /\ handled sample_parser good_meta good_table x /\ table_gives sample_parser x good_table b
  /\ comes_to_end x good_table /\ (forall n, nested_figure x good_table n -> readable sample_parser n).
Proof.
  assert (ID : identified doc_good good_meta good_table) by (pose proof (classify_spec doc_good) as H; vm_compute in H; exact H).
  assert (NM : named good_meta) by (split; [discriminate | cbn; congruence]).
  assert (R : readable sample_parser (good_meta, good_table)).
  { apply (readable_named sample_parser sample_tame sample_struct (S (esize good_table))); [lia | exact NM | intros (? & ? & ? & H & _); discriminate | exact good_quiet]. }
  assert (EV : exists e, In (EvEnt e) (snd (parse_figure (with_skip true sample_parser) good_meta good_table false))).
  { eexists. vm_compute. left. reflexivity. }
  eexists. inversion R as [m0 tbl0 hs LK TH US | m0 tbl0 x b HD TG CE NN]; subst.
  - exfalso. destruct (figure_flow sample_parser good_meta good_table (proj1 NM)) as (t0 & HL & [(hs' & _ & _ & _ & E) | [((c & ? & LK' & _) & _) | (x & HD & E)]]).
    + destruct EV as (e & EV). rewrite (E true false) in EV. cbn [snd] in EV. apply In_ents_of in EV. rewrite ents_of_app, (header_lints_ents _ _ HL) in EV. destruct EV.
    + discriminate LK'.
    + destruct HD as (_ & hs' & TH' & CH & _). rewrite (table_headers_fun _ _ _ TH' TH) in CH. unfold chosen in CH. rewrite LK in CH.
      destruct US as (A & B & C). tauto.
  - exists x, b. split; [vm_compute; reflexivity|]. split; [right; left; reflexivity|]. auto.
Qed.
(** ... and its entity is the one the run gives. *)
Example C77_ex_entity : map en_body (filter (fun e => seqb (m_fig (en_meta e)) (utf8 "3")) (ents_of (snd (parse_doc sample_parser rd_doc))))
  = [BStruct KBits [mkSField (utf8 "low") (RInt 0 7) (Some (utf8 "l")); mkSField (utf8 "out") (RInt 8 15) (Some (utf8 "o"))]].
Proof. vm_compute. reflexivity. Qed.

(** An obstacle: the row of [d_sub_bad] lacks the cell of the third column. *)
Definition bad_meta : meta := mkMeta None (utf8 "4_8") (Some (utf8 "4")).
Definition bad_x : xctx := mkX BitsTableExtractor bad_meta 0 2 2.
Example obstacle_ex : handled sample_parser bad_meta d_sub_bad bad_x /\ obstacle sample_parser bad_x d_sub_bad.
Proof.
  split.
  - split; [reflexivity|]. exists [utf8 "bits"; utf8 "type"; utf8 "description"]. split; [|split].
    + destruct (headers_spec (utf8 "4_8") d_sub_bad false (Ok [utf8 "bits"; utf8 "type"; utf8 "description"]) false []) as (hs & E & _ & TH & _);
        [discriminate | vm_compute; reflexivity|]. injection E as <-. exact TH.
    + right. right. split; [reflexivity|]. split; [|split].
      * intros [H _]. vm_compute in H. intuition discriminate.
      * intros [[[H|H] _] | (o & _ & _ & [H | [H _]])]; [vm_compute in H; intuition discriminate .. | discriminate H | discriminate H].
      * split; vm_compute; auto.
    + exists (utf8 "bits"), (utf8 "description"), (utf8 "description").
      assert (L : last_position [utf8 "bits"; utf8 "type"; utf8 "description"] (utf8 "description") 2) by (exists [utf8 "bits"; utf8 "type"], []; repeat split; intros []).
      assert (F : forall l, In (utf8 "description") l -> ~ In (utf8 "bits") l -> ~ In (utf8 "type") l ->
                    first_of [utf8 "bits"; utf8 "type"; utf8 "description"] l (utf8 "description")).
      { intros l I1 I2 I3. exists [utf8 "bits"; utf8 "type"], []. split; [reflexivity|]. split; [exact I1|]. repeat constructor; assumption. }
      split; [exists [], [utf8 "type"; utf8 "description"]; repeat split; vm_compute; intuition discriminate|]. split; [exact L|]. split; [exact L|].
      split; [exists [], [utf8 "type"; utf8 "description"]; split; [reflexivity|]; split; [vm_compute; auto | constructor]|].
      left. split; apply F; vm_compute; intuition discriminate.
  - destruct (row_iter d_sub_bad) as [rows fin] eqn:RI. vm_compute in RI. injection RI as RI RF.
    destruct rows as [|y0 [|y1 [|? ?]]]; try discriminate RI.
    eapply (obstacle_row sample_parser bad_x d_sub_bad [y0] y1 []); [vm_compute; rewrite <- RI; reflexivity | | |].
    + intros z [<-|[]] D. injection RI as E0 _. rewrite <- E0 in D. discriminate D.
    + injection RI as _ E1. rewrite <- E1. reflexivity.
    + injection RI as _ E1. rewrite <- E1. clear. cbn [ec_kind x_cls bad_x BitsTableExtractor]. apply rx_short.
      * intros k c l (_ & H & _). discriminate H.
      * intros u H. vm_compute in H. discriminate.
      * intros u H. vm_compute in H. discriminate.
      * intros (td & H). vm_compute in H. discriminate.
      * intros n H. vm_compute in H. exact H.
Qed.

Print Assumptions struct_parsers.
Print Assumptions C77_emitted.
Print Assumptions C77_obstacle.
Print Assumptions C77_causes.
Print Assumptions C77_readable.
Print Assumptions C77_document.
