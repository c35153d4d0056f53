(** Proofs for C79: figures of tables whose cells hold more than one paragraph. *)
From Coq Require Import NArith ZArith List Bool String Lia.
From Verif Require Import PyTables PyStr PyStrFacts Xml Docx Render Lint RowIter Helpers Extract Document
  SpecText SpecFields SpecLabel SpecHeader SpecRows SpecTable SpecDoc SpecRun SpecReads SpecFmt SpecDocx SpecGrid SpecHtml SpecTables SpecEnd SpecDeep SpecIter IterProofs ReadForms
  MFacts LabelProofs HeaderProofs RowProofs TableProofs GridProofs HtmlProofs TableHtml RestoreProofs
  ReadProofs Prop_Rows Prop_Label Prop_Docx Prop_Grid TablesOnce Prop_Tables DocProofs DocFlow DocRuns Prop_Doc ReadFigs Prop_Reads EndProofs EndRows EndFigure DeepText DeepTables DeepRows SpecNames NameProofs CellRead.
Import ListNotations.
Local Open Scope string_scope.
Local Open Scope list_scope.

Lemma Forall2_in_left {A B} (R : A -> B -> Prop) l m a : Forall2 R l m -> In a l -> exists b, In b m /\ R a b.
Proof. induction 1 as [|x y l m H _ IH]; intros I; [destruct I|]; destruct I as [<-|I]; [exists y; split; [left; reflexivity | exact H]|]. destruct (IH I) as (b & J & K). exists b. split; [right; exact J | exact K]. Qed.
Lemma Forall2_in_right {A B} (R : A -> B -> Prop) l m b : Forall2 R l m -> In b m -> exists a, In a l /\ R a b.
Proof. induction 1 as [|x y l m H _ IH]; intros I; [destruct I|]; destruct I as [<-|I]; [exists x; split; [left; reflexivity | exact H]|]. destruct (IH I) as (a & J & K). exists a. split; [right; exact J | exact K]. Qed.
Lemma Forall2_rev {A B} (R : A -> B -> Prop) l m : Forall2 R l m -> Forall2 R (rev l) (rev m).
Proof. induction 1; cbn [rev]; [constructor|]. apply Forall2_app; [assumption | constructor; [assumption | constructor]]. Qed.

Section Figures.
Variables (tr cr : list (str * list (str * str))) (d : docx) (P : parser).
Notation shown_whole := (whole tr cr d).
Notation same := (same_fig tr cr d).

(** What is read from a table, the rows of which are those of the document from number [h] on. *)
Definition reads_as (m : meta) (tb : elem) (x : xctx) (g : forms) (ns : list (meta * welem)) : Prop :=
  handled P m tb x /\ (exists b, forms_fit g b /\ table_gives P x tb b) /\ comes_to_end x tb
  /\ exists figs, table_figs x (fst (row_iter tb)) figs /\ Forall2 same ns figs.

Lemma rows_read fuel tbl rows s u s' e m h x g ns tb ys :
  regular tbl rows -> parse_table (parse_any d fuel) tbl s = DOk (Some u, s') -> shows tr cr u e -> shown_whole tbl e -> m_fig m <> [] ->
  row_iter tb = (ys, None) -> List.length ys = (List.length rows - h)%nat ->
  (forall r row, nth_error rows (h + r) = Some row -> exists y, nth_error ys r = Some y
       /\ (header_row row -> contains_th (y_row y) = true /\ exists x ks tail, y_row y = Elem t_tr [] x ks /\ nth_error (e_kids tb) r = Some (y_row y, tail)
             /\ blank x /\ Forall2 (cell_shown tr cr (parse_any d fuel) rows (h + r)) (own_cells row) ks)
       /\ (~ header_row row -> contains_th (y_row y) = false /\ blank (e_text (y_row y)) /\ e_kids (y_row y) = kids_of t_td (y_row y)
             /\ Forall2 (cell_restored tr cr (parse_any d fuel) rows e (h + r)) (SpecGrid.placed 0 row) (kids_of t_td (y_row y)))) ->
  table_forms P m rows h x g ns -> reads_as m tb x g ns.
Proof.
  intros RG PT SW WH Hm RI LN RW (XM & (hrow & hs & H1 & HH & HS & CH & UC) & G).
  assert (Hx : x_fig x <> []) by (unfold x_fig; rewrite XM; exact Hm).
  split; [|split; [|split; [apply ends_form; left; rewrite RI; reflexivity|]]].
  - split; [exact XM|]. exists hs. split; [|split; [exact CH | exact UC]].
    destruct (RW 0%nat hrow) as (y & Y & A & _); [rewrite Nat.add_0_r; exact H1|]. destruct (A HH) as (_ & x0 & ks & tail & E & R & _ & F). rewrite E in R.
    unfold table_headers, children, kids_of. destruct (e_kids tb) as [|q rest']; [discriminate|]. cbn [nth_error] in R. injection R as ->. cbn [filter fst e_tag]. rewrite seqb_refl. cbn [map fst e_kids].
    exact (headers_seen _ _ _ _ _ _ _ _ _ F HS).
  - destruct g as [k gs|gs].
    + destruct G as (K & gs' & G & ->). destruct (forms_rows _ _ _ _ _ _ _ _ _ _ RG PT SW WH h _ ys LN RW x _ _ _ _ G 0%nat ltac:(lia)) as ((fs & A & B) & _).
      exists (BStruct k (match k with KBits => rev fs | KBytes => fs end)). split; [|apply gives_form; rewrite RI; split; [exact K | exists fs; auto]]. split; [reflexivity|]. destruct k; [exact B | apply Forall2_rev; exact B] || (destruct k; [apply Forall2_rev; exact B | exact B]).
    + destruct G as (K & G). destruct (vforms_rows _ _ _ _ _ _ _ _ _ _ RG PT SW WH h _ ys LN RW x _ _ _ _ G 0%nat ltac:(lia)) as ((fs & A & B) & _).
      exists (BValues fs). split; [exact B | apply gives_form; rewrite RI; split; [exact K | exact A]].
  - rewrite RI. cbn [fst]. unfold table_figs. destruct g as [k gs|gs].
    + destruct G as (K & gs' & G & ->). rewrite K. destruct (forms_rows _ _ _ _ _ _ _ _ _ _ RG PT SW WH h _ ys LN RW x _ _ _ _ G 0%nat ltac:(lia)) as (_ & F). exact F.
    + destruct G as (K & G). rewrite K. destruct (vforms_rows _ _ _ _ _ _ _ _ _ _ RG PT SW WH h _ ys LN RW x _ _ _ _ G 0%nat ltac:(lia)) as (_ & F). exact F.
Qed.

(** A nested table: all its rows. *)
Lemma nested_read tbl rows e m x g ns : regular tbl rows -> shown_whole tbl e -> m_fig m <> [] -> table_forms P m rows 0 x g ns -> reads_as m e x g ns.
Proof.
  intros RG WH Hm TF. destruct (whole_renders _ _ _ _ _ WH) as (u & (fuel & s & s' & PT) & SW).
  destruct (fig_rows _ _ _ _ _ _ _ _ _ _ RG PT SW) as (ys & RI & LN & RW).
  eapply (rows_read fuel tbl rows s u s' e m 0 x g ns e ys); try eassumption. rewrite LN. lia.
Qed.
(** A titled table: the rows below its title. *)
Lemma titled_read tbl rows e m x g ns : regular tbl rows -> shown_whole tbl e -> titled rows m -> table_forms P m rows 1 x g ns ->
  exists tb, identified e m tb /\ reads_as m tb x g ns.
Proof.
  intros RG WH (title & id & TL & TI & ->) TF. destruct (whole_renders _ _ _ _ _ WH) as (u & (fuel & s & s' & PT) & SW).
  pose proof TF as (_ & (hrow & hs & H1 & HH & _) & _).
  destruct (fig_title tr cr d fuel tbl rows s u s' e RG PT SW title hrow TL H1 HH) as (tr0 & tl0 & rest & ys & EK & T0 & TT & UW & RI & LN & RW).
  exists (Elem (e_tag e) (e_attrs e) (e_text e) rest). split.
  - exists e, tr0, tl0, [], rest, id. split; [exact UW|]. split; [exact EK|]. split; [exact T0|]. split; [constructor|]. rewrite TT. split; [exact TI|]. split; reflexivity.
  - eapply (rows_read fuel tbl rows s u s' e _ 1 x g ns _ ys); try eassumption; [exact (DocProofs.title_id_nonempty _ _ TI) | rewrite LN; lia].
Qed.

Lemma reads_nested m tb x g ns : reads_as m tb x g ns -> forall f, nested_figure x tb f -> exists n, In n ns /\ same n f /\ m_fig (fst n) <> [].
Proof.
  intros (_ & _ & _ & figs & TF & F) f NF. pose proof (nested_all _ _ _ _ NF TF) as I. destruct (Forall2_in_right _ _ _ _ F I) as (n & J & S).
  exists n. split; [exact J|]. split; [exact S|]. rewrite <- (proj1 S). exact (proj1 (proj1 (nested_facts _ _ _ NF))).
Qed.
Lemma all_nested x tb figs f : table_figs x (fst (row_iter tb)) figs -> In f figs -> nested_figure x tb f.
Proof. intros TF I. apply nested_form. exists (fst (row_iter tb)), [], figs. rewrite app_nil_r. auto. Qed.

Lemma ok_readable m tbl : table_ok P m tbl -> forall e, m_fig m <> [] -> shown_whole tbl e -> readable P (m, e).
Proof.
  induction 1 as [m tbl rows hrow hs RG LK H0 HS US | m tbl rows x g ns RG TF _ IH]; intros e Hm WH.
  - eapply rd_columns; [exact LK | | exact US]. destruct (whole_renders _ _ _ _ _ WH) as (u & (fuel & s & s' & PT) & SW).
    destruct (fig_kid _ _ _ _ _ _ _ _ _ _ RG PT SW 0%nat hrow H0) as (x1 & ks & tl & K & _ & _ & F).
    unfold table_headers, children, kids_of. destruct (e_kids e) as [|q rest']; [discriminate|]. cbn [nth_error] in K. injection K as ->. cbn [filter fst e_tag]. rewrite seqb_refl. cbn [map fst e_kids].
    exact (headers_seen _ _ _ _ _ _ _ _ _ F HS).
  - pose proof (nested_read _ _ _ _ _ _ _ RG WH Hm TF) as RA. pose proof RA as (HD & (b & _ & TG) & CE & _). eapply rd_table; [exact HD | exact TG | exact CE|].
    intros [m' e'] NF. destruct (reads_nested _ _ _ _ _ RA _ NF) as (n & I & (E & W) & NE). cbn [fst snd] in E, W. subst m'. exact (IH n I e' NE W).
Qed.

(** Figures in the rows of a processed figure are processed. *)
Lemma row_fig_key x dyn y figs f : row_figs x dyn y figs -> In f figs -> (exists k, ec_kind (x_cls x) = EKStruct k) ->
  exists content key, key_of_row x (y_row y) content key /\ In (snd f) (children t_table content) /\ fst f = sub_meta (x_fig x) key.
Proof.
  intros [(k & c & l & rg & RC & _ & _ & _ & R & ->) | (_ & ->)] I (kk & K); [|destruct I]. unfold nested_in in I. apply in_map_iff in I as (sub & <- & S). exists c, (key_of_range rg). split; [|auto].
  unfold key_of_row. rewrite K. exists k, l, rg. split; [exact RC|]. split; [destruct dyn; auto | reflexivity].
Qed.
Lemma rows_fig_key x dyn ys figs f : rows_figs x dyn ys figs -> In f figs -> (exists k, ec_kind (x_cls x) = EKStruct k) ->
  exists y content key, In y ys /\ key_of_row x (y_row y) content key /\ In (snd f) (children t_table content) /\ fst f = sub_meta (x_fig x) key.
Proof.
  induction 1 as [dyn | dyn y rest figs _ _ IH | dyn y rest a b _ _ RF _ IH | dyn y rest _ _]; intros I K; try (destruct I; fail).
  - destruct (IH I K) as (y' & c & key & A & B). exists y', c, key. split; [right; exact A | exact B].
  - apply in_app_or in I as [I|I].
    + destruct (row_fig_key _ _ _ _ _ RF I K) as (c & key & A). exists y, c, key. split; [left; reflexivity | exact A].
    + destruct (IH I K) as (y' & c & key & A & B). exists y', c, key. split; [right; exact A | exact B].
Qed.
Lemma vrows_fig_key x ys figs f : vrows_figs x ys figs -> In f figs -> ec_kind (x_cls x) = EKValues ->
  exists y content key, In y ys /\ key_of_row x (y_row y) content key /\ In (snd f) (children t_table content) /\ fst f = sub_meta (x_fig x) key.
Proof.
  induction 1 as [| y rest figs _ _ IH | y rest a b _ _ RF _ IH | y rest _ _]; intros I K; try (destruct I; fail).
  - destruct (IH I K) as (y' & c & key & A & B). exists y', c, key. split; [right; exact A | exact B].
  - apply in_app_or in I as [I|I].
    + destruct RF as [(k & c & VC & _ & ->) | (_ & ->)]; [|destruct I]. unfold nested_in in I. apply in_map_iff in I as (sub & <- & S). exists y, c, (lower (to_text k)). split; [left; reflexivity|]. split; [|auto].
      unfold key_of_row. rewrite K. eauto.
    + destruct (IH I K) as (y' & c & key & A & B). exists y', c, key. split; [right; exact A | exact B].
Qed.
Lemma nested_processed tbls m tb x f : processed P tbls m tb -> handled P m tb x -> nested_figure x tb f -> processed P tbls (fst f) (snd f).
Proof.
  intros PR HD NF. apply nested_form in NF as (a & b & figs & E & TF & I).
  assert (Q : exists y content key, In y a /\ key_of_row x (y_row y) content key /\ In (snd f) (children t_table content) /\ fst f = sub_meta (x_fig x) key).
  { unfold table_figs in TF. destruct (ec_kind (x_cls x)) eqn:K; [eapply rows_fig_key | eapply vrows_fig_key]; eauto. }
  destruct Q as (y & c & key & IY & KR & IS & ->). unfold x_fig. rewrite (proj1 HD). eapply pr_nested; [exact PR | exact HD | exact (rows_at _ _ E) | apply in_or_app; left; exact IY | exact KR | exact IS].
Qed.

Hypothesis TM : tame P.
Hypothesis SO : struct_overrides P.
Lemma unhandled m tb hs x : handled P m tb x -> table_headers tb hs -> unsupported hs -> lookup_fig (p_fig_overrides P) (m_fig m) = None -> False.
Proof. intros (_ & hs' & TH' & CH & _) TH US LK. rewrite (table_headers_fun _ _ _ TH' TH) in CH. unfold chosen in CH. rewrite LK in CH. destruct US as (A & B & C). tauto. Qed.

(** Entities of nested figures are entities of the figure. *)
Lemma nested_entities doc m tb x f en : processed P (figures doc) m tb -> handled P m tb x -> ~ figure_raises P (m, tb) -> nested_figure x tb f ->
  In en (figure_entities P f) -> In en (figure_entities P (m, tb)).
Proof.
  intros PR HD NR NF IE. destruct (order_of_rows P doc m tb TM PR NR) as [(hs & LK & TH & US & _) | (x' & figs & own & rest & HD' & TF & _ & _ & -> & _)].
  - destruct (unhandled _ _ _ _ HD TH US LK).
  - rewrite <- (handled_fun _ _ _ _ _ SO HD HD') in TF. apply in_or_app. left. apply in_flat_map. exists f. split; [exact (nested_all _ _ _ _ NF TF) | exact IE].
Qed.

Lemma part_entity doc m tbl m' g' : table_part P m tbl m' g' -> forall e, shown_whole tbl e -> processed P (figures doc) m e -> ~ figure_raises P (m, e) ->
  exists b, forms_fit g' b /\ In (mkEntity m' b) (figure_entities P (m, e)).
Proof.
  induction 1 as [m tbl rows x g ns RG TF | m tbl rows x g ns n m' g' RG TF IN _ IH]; intros e WH PR NR; pose proof (processed_tame _ _ _ _ TM PR) as NM;
    pose proof (nested_read _ _ _ _ _ _ _ RG WH (proj1 NM) TF) as RA; pose proof RA as (HD & (b & FF & TG) & CE & figs & FG & F2).
  - exists b. split; [exact FF|]. eapply C77_emitted; try eassumption. intros f NF. exact (nested_quiet _ _ _ _ _ TM SO NM HD NR NF).
  - destruct (Forall2_in_left _ _ _ _ F2 IN) as (f & IF & E & W). pose proof (all_nested _ _ _ _ FG IF) as NF.
    pose proof (nested_processed _ _ _ _ _ PR HD NF) as PF. pose proof (nested_quiet _ _ _ _ _ TM SO NM HD NR NF) as NQ. destruct f as [mf ef]. cbn [fst snd] in *. subst mf.
    destruct (IH ef W PF NQ) as (b' & FF' & IE). exists b'. split; [exact FF'|]. exact (nested_entities doc m e x _ _ PR HD NR NF IE).
Qed.

(** The figure of a titled table and the figures in it. *)
Theorem figure_deep doc tbl rows e m x g ns : regular tbl rows -> shown_whole tbl e -> In e (figures doc) -> titled rows m -> table_forms P m rows 1 x g ns ->
  (forall n, In n ns -> table_ok P (fst n) (snd n)) ->
  exists tb, identified e m tb
    /\ (exists b, forms_fit g b /\ In (mkEntity m b) (figure_entities P (m, tb)))
    /\ (~ splits P (m_fig m) -> forall n m' g', In n ns -> table_part P (fst n) (snd n) m' g' ->
          exists b, forms_fit g' b /\ In (mkEntity m' b) (figure_entities P (m, tb))).
Proof.
  intros RG WH IE TI TF OK. destruct (titled_read _ _ _ _ _ _ _ RG WH TI TF) as (tb & ID & RA). exists tb. split; [exact ID|].
  assert (PR : processed P (figures doc) m tb) by (eapply pr_top; eassumption).
  pose proof (processed_tame _ _ _ _ TM PR) as NM. pose proof RA as (HD & (b & FF & TG) & CE & figs & FG & F2).
  assert (NN : forall f, nested_figure x tb f -> ~ figure_raises P f).
  { intros [mf ef] NF. destruct (reads_nested _ _ _ _ _ RA _ NF) as (n & I & (E & W) & NE). cbn [fst snd] in E, W. subst mf.
    apply (readable_named P TM SO (S (esize ef))); [lia | exact (proj1 (nested_facts _ _ _ NF)) | exact (nested_splits P _ _ _ TM NF) | exact (ok_readable _ _ (OK n I) ef NE W)]. }
  destruct (C77_emitted P doc m tb x b TM SO PR HD TG CE NN) as [EN NR]. split; [eauto|]. intros NS n m' g' I TP. specialize (NR NS).
  destruct (Forall2_in_left _ _ _ _ F2 I) as (f & IF & E & W). pose proof (all_nested _ _ _ _ FG IF) as NF.
  pose proof (nested_processed _ _ _ _ _ PR HD NF) as PF. destruct f as [mf ef]. cbn [fst snd] in *. subst mf.
  destruct (part_entity doc _ _ _ _ TP ef W PF (NN _ NF)) as (b' & FF' & IE'). exists b'. split; [exact FF'|]. exact (nested_entities doc m tb x _ _ PR HD NR NF IE').
Qed.
End Figures.
