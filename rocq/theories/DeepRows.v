(** Proofs for C79: the rows of tables whose cells hold more than one paragraph. *)
From Coq Require Import NArith ZArith List Bool String Lia.
From Verif Require Import QueryProofs RunProofs PyTables PyStr PyStrFacts Xml Docx Render Lint RowIter Helpers Extract Document
  SpecText SpecFields SpecLabel SpecHeader SpecRows SpecTable SpecDoc SpecRun SpecReads SpecFmt SpecDocx SpecGrid SpecHtml SpecTables SpecEnd SpecDeep
  MFacts LabelProofs HeaderProofs RowProofs TableProofs GridProofs HtmlProofs TableHtml RestoreProofs
  ReadProofs Prop_Rows Prop_Label Prop_Docx Prop_Grid TablesOnce Prop_Tables EndProofs EndRows EndFigure DeepText DeepTables SpecNames NameProofs CellRead.
Import ListNotations.
Local Open Scope string_scope.
Local Open Scope list_scope.

(** The rows of a whole table, as [EndRows.fig_title] has them for a table below its title. *)
Section All.
Variables (tr cr : list (str * list (str * str))) (d : docx) (fuel : nat).
Variables (tbl : welem) (rows : list (list wcell)) (s : seen) (u : hunit) (s' : seen) (e : elem).
Hypothesis RG : regular tbl rows.
Hypothesis PT : parse_table (parse_any d fuel) tbl s = DOk (Some u, s').
Hypothesis SW : shows tr cr u e.
Notation pa := (parse_any d fuel).
Notation cshown := (cell_shown tr cr pa rows).

Lemma fig_rows : exists ys, row_iter e = (ys, None) /\ List.length ys = List.length rows
  /\ forall r row, nth_error rows r = Some row -> exists y, nth_error ys r = Some y
       /\ (header_row row -> contains_th (y_row y) = true /\ exists x ks tail, y_row y = Elem t_tr [] x ks /\ nth_error (e_kids e) r = Some (y_row y, tail)
             /\ blank x /\ Forall2 (cshown r) (own_cells row) ks)
       /\ (~ header_row row -> contains_th (y_row y) = false /\ blank (e_text (y_row y)) /\ e_kids (y_row y) = kids_of t_td (y_row y)
             /\ Forall2 (cell_restored tr cr pa rows e r) (SpecGrid.placed 0 row) (kids_of t_td (y_row y))).
Proof.
  destruct (fig_out _ _ _ _ _ _ _ _ _ _ RG PT SW) as (ys & RI & LY & N). exists ys. split; [exact RI|]. split; [exact LY|]. intros r row R.
  destruct (fig_kid _ _ _ _ _ _ _ _ _ _ RG PT SW r row R) as (x1 & ks1 & tail & K & BX1 & _ & F1).
  assert (exists y, nth_error ys r = Some y) as (y & Y).
  { destruct (nth_error ys r) as [y|] eqn:Y; [eauto|]. apply nth_error_None in Y. assert (nth_error rows r <> None) as X by congruence. apply nth_error_Some in X. lia. }
  exists y. split; [exact Y|]. destruct (N r row (Elem t_tr [] x1 ks1, tail) y R K Y) as [NA NB]. cbn [fst] in NA.
  assert (CL : exists z, nth_error (select_rows (e_kids e)) r = Some z /\ contains_th (y_row y) = contains_th (y_row z) /\ clean_row (y_row y)).
  { apply (loop_clean (select_rows (e_kids e)) []); [constructor | |].
    - apply Forall_forall. intros z I. apply In_nth_error in I as (i & I). exact (fig_loop_clean _ _ _ _ _ _ _ _ _ _ RG PT SW i z I).
    - change (row_loop (select_rows (e_kids e)) []) with (row_iter e). rewrite RI. exact Y. }
  destruct CL as (z & Z1 & Z2 & Z3). destruct (select_all _ (fig_cells _ _ _ _ _ _ _ _ _ _ RG PT SW)) as [_ SA]. destruct (SA r _ K) as (sib & Z1'). rewrite Z1' in Z1. injection Z1 as <-. cbn [y_row fst] in Z2.
  split; intros HR.
  - pose proof (proj2 (fig_th _ _ _ _ _ r row x1 ks1 F1) HR) as T. split; [congruence|]. rewrite (NA HR). exists x1, ks1, tail. auto.
  - assert (T : contains_th (Elem t_tr [] x1 ks1) = false).
    { destruct (contains_th (Elem t_tr [] x1 ks1)) eqn:T; [|reflexivity]. apply (fig_th _ _ _ _ _ r row x1 ks1 F1) in T. contradiction. }
    rewrite T in Z2. destruct (Z3 Z2) as [B D]. split; [exact Z2|]. split; [exact B|]. split; [symmetry; apply tds_all; exact D|]. apply NB, HR.
Qed.
End All.

(** Rows with one cell have too few. *)
Lemma one_short x y : (exists td, children t_td (y_row y) = [td]) -> wide x -> forall k c l, ~ SpecTable.row_cells x (y_row y) k c l.
Proof.
  intros (td & E) W k c l (K & C & q & L & _). rewrite E in K, C, L. unfold wide in W.
  destruct (x_key x) as [|i]; [|destruct i; discriminate]. destruct (x_content x) as [|j]; [|destruct j; discriminate]. destruct (x_label x) as [|n]; [lia | destruct n; discriminate].
Qed.
Lemma one_vshort x y : (exists td, children t_td (y_row y) = [td]) -> (1 <= x_key x \/ 1 <= x_content x)%nat -> forall k c, ~ value_cells x (y_row y) k c.
Proof.
  intros (td & E) W k c (K & C). rewrite E in K, C.
  destruct (x_key x) as [|i]; [|destruct i; discriminate]. destruct (x_content x) as [|j]; [lia | destruct j; discriminate].
Qed.

Section Rows.
Variables (tr cr : list (str * list (str * str))) (d : docx) (fuel : nat).
Variables (tbl : welem) (rows : list (list wcell)) (s : seen) (u : hunit) (s' : seen) (e : elem).
Hypothesis RG : regular tbl rows.
Hypothesis PT : parse_table (parse_any d fuel) tbl s = DOk (Some u, s').
Hypothesis SW : shows tr cr u e.
Hypothesis WH : whole tr cr d tbl e.
Notation pa := (parse_any d fuel).
Notation cshown := (cell_shown tr cr pa rows).
Notation shown_whole := (whole tr cr d).

(** The element [td] shows the cell [tc], with all its tables. *)
Definition shown_td (td : elem) (tc : welem) : Prop :=
  exists tag a ks us s1 s2, td = Elem tag a [] ks /\ pa (w_kids tc) s1 = DOk (us, s2) /\ units_show tr cr us ks
    /\ Forall2 shown_whole (w_children "w:tbl" tc) (children t_table td).
Lemma td_text td tc : shown_td td tc -> texts_of (w_kids tc) (itertext td).
Proof. intros (tag & a & ks & us & s1 & s2 & -> & PA & US & _). rewrite itertext_elem. exact (any_texts _ _ _ _ _ _ _ _ _ PA US). Qed.
Lemma td_tells td tc : shown_td td tc -> cell_tells tc (to_text td).
Proof. intros T. exists (itertext td). split; [exact (td_text _ _ T) | apply strip_trims]. Qed.
Lemma td_goes td tc t w1 w2 : shown_td td tc -> cell_opens tc t -> blank w1 -> blank w2 -> goes_on t (strip (w1 ++ itertext td ++ w2)).
Proof. intros T O B1 B2. exact (tells_goes _ _ _ _ _ B1 B2 O (td_text _ _ T)). Qed.
Lemma td_goes' td tc t : shown_td td tc -> cell_opens tc t -> goes_on t (to_text td).
Proof. intros T O. pose proof (td_goes _ _ _ [] [] T O ltac:(constructor) ltac:(constructor)) as G. cbn [app] in G. rewrite app_nil_r in G. exact G. Qed.
Lemma td_says td tc t : shown_td td tc -> cell_says tc t -> to_text td = t.
Proof. intros T O. pose proof (tells_says [] _ [] _ _ ltac:(constructor) ltac:(constructor) O (td_text _ _ T)) as G. cbn [app] in G. rewrite app_nil_r in G. exact G. Qed.

Lemma opens_units tc t f s0 us s1 : cell_opens tc t -> parse_any d f (w_kids tc) s0 = DOk (us, s1) ->
  exists sps us', us = HPar sps :: us' /\ trims_to (List.concat (map sp_text sps)) t.
Proof.
  intros (a & p & b & rs & xs & K & TP & U & FA & R & RT & NE & T & _) H. rewrite K in H.
  destruct (any_skip _ _ FA _ _ _ _ H) as (f' & E). clear H. destruct f' as [|f']; [discriminate|]. cbn [parse_any] in E.
  assert (NT : is_tag "w:tbl" p = false) by (apply is_tag_false; rewrite TP; discriminate). rewrite NT, (proj2 (is_tag_iff _ _) TP) in E.
  unfold is_list_p in E. rewrite (unnumbered_num p U) in E. cbn [dbind] in E. unfold parse_paragraph in E.
  destruct (parse_spans d p) as [sps| |] eqn:PS; cbn [dbind] in E; try discriminate.
  destruct (parse_any d f' b s0) as [[us' s'']| |] eqn:PB; cbn [dbind] in E; try discriminate. injection E as <- <-.
  destruct (C65_text _ _ _ PS) as (rs' & R' & RT'). destruct (C65_unique _ _ _ _ _ R R' RT RT') as [_ ->].
  exists sps, us'. split; [|exact T]. destruct sps; [destruct (NE eq_refl) | reflexivity].
Qed.
Lemma td_p td tc t : shown_td td tc -> cell_opens tc t -> exists p, nth_error (children t_p td) 0 = Some p /\ to_text p = t.
Proof.
  intros (tag & a & ks & us & s1 & s2 & -> & PA & US & _) O. destruct (opens_units _ _ _ _ _ _ O PA) as (sps & us' & -> & T).
  inversion US as [|? ? e0 tl ks' SX BR US']; subst. inversion SX as [sps' x kk BX F2 | |]; subst. apply breaks_blank in BX.
  exists (Elem (utf8 "p") [] x kk). split; [reflexivity|].
  unfold to_text. rewrite itertext_elem, (spans_text _ _ _ F2). rewrite <- (app_nil_r (List.concat _)). apply strip_around; [exact BX | constructor | exact T].
Qed.
Lemma td_del td tc n : shown_td td tc -> shown_td (del_attr n td) tc.
Proof. intros (tag & a & ks & us & s1 & s2 & -> & PA & US & F). exists tag, (filter (fun q => negb (seqb (fst q) n)) a), ks, us, s1, s2. auto. Qed.

Lemma cell_td r row o j tc : nth_error rows r = Some row -> Forall2 (cell_restored tr cr pa rows e r) (SpecGrid.placed 0 row) (kids_of t_td o) ->
  cell_at rows r j tc -> exists td tl, nth_error (kids_of t_td o) j = Some (td, tl) /\ shown_td td tc /\ blank tl.
Proof.
  intros R F (row' & y & c & R' & P & SA). assert (row' = row) as -> by congruence.
  destruct (Forall2_at _ _ _ F j _ P) as ([td tl] & K & r0 & row0 & c0 & k0 & tr0 & tail & j0 & LE & R0 & I0 & SA0 & _ & K0 & J0 & CK & E). cbn [fst] in *.
  rewrite (C41_shown_unique _ _ _ _ _ SA SA0). exists td, tl. split; [exact K|].
  assert (RG' := RG). destruct RG' as (LY & AL & _). destruct (fig_kid _ _ _ _ _ _ _ _ _ _ RG PT SW r0 row0 R0) as (x1 & ks1 & tl1 & K1 & _ & _ & _).
  pose proof (eq_trans (eq_sym K0) K1) as KK. injection KK as -> ->. cbn [e_kids] in J0.
  pose proof (whole_cells _ _ _ _ _ _ _ _ _ _ LY AL PT SW WH r0 row0 x1 ks1 tl1 R0 K1) as WC.
  destruct (Forall2_at _ _ _ WC j0 _ I0) as (k1 & J1 & WT). pose proof (eq_trans (eq_sym J0) J1) as KK. injection KK as <-. cbn [snd] in WT.
  assert (Q : shown_td (fst k0) (wc_tc c0) /\ blank (snd k0)).
  { destruct CK as (a & ks & tail' & n & us & s1 & s2 & -> & BT & _ & _ & _ & PA & US). split; [|exact (breaks_blank _ BT)]. cbn [fst snd] in *. eexists _, _, _, _, _, _. split; [reflexivity|]. eauto. }
  destruct Q as [Q1 Q2]. destruct (r0 =? r)%nat; [subst k0; auto|]. injection E as -> ->. split; [apply td_del; exact Q1 | exact Q2].
Qed.
Lemma says_at r j t : says rows r j t -> exists tc, cell_at rows r j tc /\ cell_says tc t.
Proof. intros (row & y & c & tc & A & B & C & D). exists tc. split; [exists row, y, c; auto | exact D]. Qed.

(** ** Rows from number [h] on *)
Variables (h : nat) (rest : list kid) (ys : list yrow).
Hypothesis LN : List.length ys = (List.length rows - h)%nat.
Hypothesis RW : forall r row, nth_error rows (h + r) = Some row -> exists y, nth_error ys r = Some y
       /\ (header_row row -> contains_th (y_row y) = true /\ exists x ks tail, y_row y = Elem t_tr [] x ks /\ nth_error rest r = Some (y_row y, tail)
             /\ blank x /\ Forall2 (cshown (h + r)) (own_cells row) ks)
       /\ (~ header_row row -> contains_th (y_row y) = false /\ blank (e_text (y_row y)) /\ e_kids (y_row y) = kids_of t_td (y_row y)
             /\ Forall2 (cell_restored tr cr pa rows e (h + r)) (SpecGrid.placed 0 row) (kids_of t_td (y_row y))).
Variable x : xctx.

Lemma drows_end r : nth_error rows (h + r) = None -> skipn r ys = [].
Proof. intros N. apply nth_error_None in N. apply skipn_all2. rewrite LN. lia. Qed.
Lemma drow_header r row : nth_error rows (h + r) = Some row -> header_row row -> exists y, skipn r ys = y :: skipn (S r) ys /\ children t_th (y_row y) <> []
  /\ forall ts, wide_texts row ts -> (announces_list (y_row y) = true <-> names_list ts).
Proof.
  intros R H. destruct (RW r row R) as (y & Y & A & _). destruct (A H) as (T & x0 & ks & tail & E & _ & _ & F). exists y. split; [apply skipn_at; exact Y|].
  split; [intros X; apply contains_th_children in X; congruence|]. intros ts W. rewrite <- list_header_spec. unfold is_list_header. rewrite E, (wide_colspan _ _ _ _ _ _ _ _ _ x0 F W). apply contains_app.
Qed.
Lemma drow_data r row : nth_error rows (h + r) = Some row -> ~ header_row row -> exists y, skipn r ys = y :: skipn (S r) ys /\ children t_th (y_row y) = []
  /\ (forall j tc, cell_at rows (h + r) j tc -> exists td, nth_error (children t_td (y_row y)) j = Some td /\ shown_td td tc)
  /\ (forall t, lone_opens rows (h + r) t -> goes_on t (to_text (y_row y)) /\ exists td, children t_td (y_row y) = [td]).
Proof.
  intros R H. destruct (RW r row R) as (y & Y & _ & A). destruct (A H) as (T & BX & EK & F). exists y. split; [apply skipn_at; exact Y|].
  split; [apply contains_th_children; exact T|]. split.
  - intros j tc CA. destruct (cell_td _ _ _ _ _ R F CA) as (td & tl & K & C & _). exists td. split; [|exact C]. unfold children. rewrite nth_error_map. exact (f_equal (option_map fst) K).
  - intros t ((c & RC) & tc & CA & CO). assert (row = [c]) as -> by congruence. destruct (cell_td _ _ _ _ _ R F CA) as (td & tl & K & C & BT).
    cbn [SpecGrid.placed] in F. inversion F as [|? k ? ks _ F' E1 E2]; subst. inversion F'; subst. rewrite <- E2 in K. cbn in K. injection K as ->.
    split; [|exists td; unfold children; rewrite <- E2; reflexivity]. destruct (y_row y) as [tg at_ xt ks]. cbn [e_text e_kids] in *. unfold to_text. rewrite itertext_elem, EK, <- E2. unfold flat_map. cbn [fst snd]. rewrite app_nil_r.
    exact (td_goes _ _ _ _ _ C CO BX BT).
Qed.

(** The nested figures, as tables of the document. *)
Definition same_fig (n : meta * welem) (f : meta * elem) : Prop := fst f = fst n /\ shown_whole (snd n) (snd f).
Lemma tables_figs key cc ce : shown_td ce cc -> Forall2 same_fig (tables_in x key cc) (nested_in x key ce).
Proof.
  intros (tag & a & ks & us & s1 & s2 & _ & _ & _ & F). unfold tables_in, nested_in. revert F. generalize (w_children "w:tbl" cc) (children t_table ce). clear. intros l m F.
  induction F; cbn [map]; constructor; [split; [reflexivity | assumption] | assumption].
Qed.

Lemma form_row y dyn k l cc g ms ke le ce :
  row_form x dyn k l cc g ms -> SpecTable.row_cells x (y_row y) ke ce le -> to_text ke = k -> to_text le = l -> shown_td ce cc ->
  (exists f, row_gives x dyn y f /\ match g, f with Some g, Some f => fits g f | None, None => True | _, _ => False end)
  /\ exists figs, row_figs x dyn y figs /\ Forall2 same_fig ms figs.
Proof.
  intros G RC TK TL SC. assert (FUN : forall k0 c0 l0, SpecTable.row_cells x (y_row y) k0 c0 l0 -> k0 = ke /\ c0 = ce /\ l0 = le) by (intros k0 c0 l0 RC0; destruct (row_cells_fun _ _ _ _ _ _ _ _ RC0 RC) as (-> & -> & ->); auto).
  inversion G as [c r raw lbl CO A B C D E NM | A | c r lbl CS A B C D | c r CS A B C D]; subst.
  - pose proof (goes_special _ _ (td_goes' _ _ _ SC CO) C) as NS. split.
    + eexists. split; [eapply rg_regular; try eassumption; apply kept_iff; reflexivity|]. split; [reflexivity|]. split; [reflexivity|]. cbn [fo_cell]. exists (to_text ce). split; [exact (td_tells _ _ SC) | apply kept_iff; reflexivity].
    + eexists. split; [left; eexists _, _, _, _; split; [exact RC|]; split; [exact A|]; split; [exact B|]; split; [exact NS|]; split; [exact D | reflexivity]|]. apply tables_figs. exact SC.
  - split; [exists None; split; [eapply rg_special_range; eassumption | exact Logic.I]|]. exists []. split; [|constructor]. right. split; [|reflexivity]. intros k0 c0 l0 R0. destruct (FUN _ _ _ R0) as (-> & _). left. exact A.
  - rewrite <- (td_says _ _ _ SC CS) in *. split.
    + eexists. split; [eapply rg_special_content; try eassumption; reflexivity|]. split; [reflexivity|]. split; reflexivity.
    + exists []. split; [|constructor]. right. split; [|reflexivity]. intros k0 c0 l0 R0. destruct (FUN _ _ _ R0) as (_ & -> & _). right; right.
      unfold special. destruct C as [E|[E|[E|[]]]]; rewrite <- E; auto.
  - rewrite <- (td_says _ _ _ SC CS) in *. split; [exists None; split; [eapply rg_special_other; eassumption | exact Logic.I]|].
    exists []. split; [|constructor]. right. split; [|reflexivity]. intros k0 c0 l0 R0. destruct (FUN _ _ _ R0) as (_ & -> & ->). tauto.
Qed.

Lemma ell_note t u1 u2 : lower t = lbl_ellipsis ++ u1 -> lower t = utf8 "note" ++ u2 -> False.
Proof. intros A B. rewrite A in B. discriminate B. Qed.
Lemma ell_notes t u1 u2 : lower t = lbl_ellipsis ++ u1 -> lower t = utf8 "notes:" ++ u2 -> False.
Proof. intros A B. rewrite A in B. discriminate B. Qed.
Lemma goes_ell t c : goes_on t c -> ((exists u, lower c = lbl_ellipsis ++ u) <-> exists u, lower t = lbl_ellipsis ++ u).
Proof. apply goes_prefix; [nospace | discriminate]. Qed.
Lemma goes_note t c : goes_on t c -> ((exists u, lower c = utf8 "note" ++ u) <-> exists u, lower t = utf8 "note" ++ u).
Proof. apply goes_prefix; [nospace | discriminate]. Qed.
Lemma goes_notes t c : goes_on t c -> ((exists u, lower c = utf8 "notes:" ++ u) <-> exists u, lower t = utf8 "notes:" ++ u).
Proof. apply goes_prefix; [nospace | discriminate]. Qed.

Lemma forms_rows n dyn gs ns : docx_forms x rows n dyn gs ns -> forall r, n = (h + r)%nat ->
  (exists fs, rows_give x dyn (skipn r ys) fs /\ Forall2 fits gs fs) /\ exists figs, rows_figs x dyn (skipn r ys) figs /\ Forall2 same_fig ns figs.
Proof.
  induction 1 as [n dyn N | n dyn row ts gs ns R H W NL G IH | n dyn row ts gs ns R H W NL G IH | n dyn row k lc l cc g ms gs ns R H K LC L CC T G IH
    | n dyn row t w gs ns R H W LO E G IH | n dyn row t gs ns R H W LO NE NN HD G IH | n dyn row t w R H W LO E]; intros r ->.
  - rewrite (drows_end r N). split; [exists [] | exists []]; split; constructor.
  - destruct (drow_header r row R H) as (y & -> & TH & LH). specialize (LH ts W). destruct (IH (S r) (plus_n_Sm _ _)) as ((fs & A & B) & figs & C & D).
    assert (X : dyn || announces_list (y_row y) = dyn) by (destruct (announces_list (y_row y)); [destruct NL; apply LH; reflexivity | apply orb_false_r]).
    split; [exists fs; split; [apply tg_header; [exact TH | rewrite X; exact A] | exact B] | exists figs; split; [apply rf_header; [exact TH | rewrite X; exact C] | exact D]].
  - destruct (drow_header r row R H) as (y & -> & TH & LH). specialize (LH ts W). destruct (IH (S r) (plus_n_Sm _ _)) as ((fs & A & B) & figs & C & D).
    assert (X : dyn || announces_list (y_row y) = true) by (rewrite (proj2 LH NL); apply orb_true_r).
    split; [exists fs; split; [apply tg_header; [exact TH | rewrite X; exact A] | exact B] | exists figs; split; [apply rf_header; [exact TH | rewrite X; exact C] | exact D]].
  - destruct (drow_data r row R H) as (y & -> & TH & SD & _). destruct (IH (S r) (plus_n_Sm _ _)) as ((fs & A & B) & figs & C & D).
    destruct (says_at _ _ _ K) as (kc & KC & KS). destruct (SD _ _ KC) as (ke & K1 & SK). destruct (SD _ _ LC) as (td & L1 & SL). destruct (SD _ _ CC) as (ce & C1 & SC).
    destruct (td_p _ _ _ SL L) as (le & P1 & TL).
    assert (RC : SpecTable.row_cells x (y_row y) ke ce le) by (split; [exact K1|]; split; [exact C1|]; eauto).
    destruct (form_row y dyn k l cc g ms ke le ce T RC (td_says _ _ _ SK KS) TL SC) as ((f & RGV & FT) & figs0 & RF & F0). split.
    + destruct g as [g|], f as [f|]; try destruct FT.
      * exists (f :: fs). split; [apply tg_field; assumption | constructor; [split; assumption | assumption]].
      * exists fs. split; [apply tg_nothing; assumption | assumption].
    + exists (figs0 ++ figs). split; [|apply Forall2_app; assumption]. apply rf_row; try assumption. intros [w X _ | ex X _ _ _]; exact (X _ _ _ RC).
  - destruct (drow_data r row R H) as (y & -> & TH & _ & SL). destruct (SL t LO) as [TX ON]. destruct (IH (S r) (plus_n_Sm _ _)) as ((fs & A & B) & figs & C & D).
    destruct (proj2 (goes_ell _ _ TX) (ex_intro _ _ E)) as (w' & E'). split.
    + exists (ellipsis_field :: fs). split; [apply tg_field; [exact TH | eapply rg_ellipsis; [exact (one_short x y ON W) | exact E'] | exact A] | constructor; [repeat split | exact B]].
    + exists ([] ++ figs). split; [|exact D]. apply rf_row; [exact TH | | right; split; [|reflexivity] | exact C].
      * intros [v _ X | ex _ X _ _]; [exact (ell_note _ _ _ E' X) | exact (X _ E')].
      * intros k0 c0 l0 RC. destruct (one_short x y ON W _ _ _ RC).
  - destruct (drow_data r row R H) as (y & -> & TH & _ & SL). destruct (SL t LO) as [TX ON]. destruct (IH (S r) (plus_n_Sm _ _)) as ((fs & A & B) & figs & C & D).
    assert (NE' : forall v, lower (to_text (y_row y)) <> lbl_ellipsis ++ v) by (intros v X; destruct (proj1 (goes_ell _ _ TX) (ex_intro _ _ X)) as (v' & X'); exact (NE _ X')).
    assert (NN' : forall v, lower (to_text (y_row y)) <> utf8 "note" ++ v) by (intros v X; destruct (proj1 (goes_note _ _ TX) (ex_intro _ _ X)) as (v' & X'); exact (NN _ X')).
    assert (RH : tolerated x y) by (unfold tolerated; rewrite HD; exact ON). split.
    + exists fs. split; [apply tg_nothing; [exact TH | eapply rg_tolerated; [exact (one_short x y ON W) | exact NE' | exact NN' | exact RH] | exact A] | exact B].
    + exists ([] ++ figs). split; [|exact D]. apply rf_row; [exact TH | | right; split; [|reflexivity] | exact C].
      * intros [v _ X | ex _ _ _ X]; [exact (NN' _ X) | exact (tolerated_splits _ _ _ RH X)].
      * intros k0 c0 l0 RC. destruct (one_short x y ON W _ _ _ RC).
  - destruct (drow_data r row R H) as (y & -> & TH & _ & SL). destruct (SL t LO) as [TX ON]. destruct (proj2 (goes_note _ _ TX) (ex_intro _ _ E)) as (w' & E').
    assert (RE : row_ends x y) by (eapply re_note; [exact (one_short x y ON W) | exact E']).
    split; [exists [] | exists []]; (split; [|constructor]); [apply tg_stop | apply rf_stop]; assumption.
Qed.

(** ** Value tables *)
Variable ov : overrides.
Lemma form_vrow r y k cc g ms ke ce :
  vrow_form ov x rows (h + r) k cc g ms -> value_cells x (y_row y) ke ce -> to_text ke = k -> shown_td ce cc ->
  (forall j tc, cell_at rows (h + r) j tc -> exists td, nth_error (children t_td (y_row y)) j = Some td /\ shown_td td tc) ->
  (exists f, vrow_gives ov x y (Some f) /\ vfits g f) /\ exists figs, vrow_figs x y figs /\ Forall2 same_fig ms figs.
Proof.
  intros G VC TK SC SD. subst k. inversion G as [A | lbl A B | lc l c lbl A B LC LO CO V]; subst.
  - split; [exists ellipsis_value; split; [eapply vg_ellipsis; eassumption | repeat split]|]. exists []. split; [|constructor]. right. split; [|reflexivity]. intros k0 c0 R0. destruct (value_cells_fun _ _ _ _ _ _ R0 VC) as (-> & ->). exact A.
  - split; [eexists; split; [eapply vg_override; try eassumption; apply brief_iff; reflexivity|]; split; [reflexivity|]; split; [reflexivity|]; cbn [vo_cell]; exists (to_text ce); split; [exact (td_tells _ _ SC) | apply brief_iff; reflexivity]|].
    eexists. split; [left; eexists _, _; split; [exact VC|]; split; [exact A | reflexivity]|]. apply tables_figs. exact SC.
  - split; [eexists; split; [eapply vg_label; try eassumption; [|apply brief_iff; reflexivity]|]; [|split; [reflexivity|]; split; [reflexivity|]; cbn [vo_cell]; exists (to_text ce); split; [exact (td_tells _ _ SC) | apply brief_iff; reflexivity]]|].
    + destruct (SD _ _ LC) as (td & L1 & SL). destruct (td_p _ _ _ SL LO) as (p & P & TL). exists td, p. destruct (children t_p td) as [|p' ps] eqn:EC; [discriminate|]. injection P as <-. exists ps. auto.
    + eexists. split; [left; eexists _, _; split; [exact VC|]; split; [exact A | reflexivity]|]. apply tables_figs. exact SC.
Qed.
Lemma vforms_rows n gs ns : docx_vforms ov x rows n gs ns -> forall r, n = (h + r)%nat ->
  (exists fs, vrows_give ov x (skipn r ys) fs /\ Forall2 vfits gs fs) /\ exists figs, vrows_figs x (skipn r ys) figs /\ Forall2 same_fig ns figs.
Proof.
  induction 1 as [n N | n row gs ns R H G IH | n row k cc g ms gs ns R H K CC T G IH
    | n row t w gs ns R H W LO E G IH | n row t gs ns R H W LO NE NN G IH | n row t w R H W LO E]; intros r ->.
  - rewrite (drows_end r N). split; [exists [] | exists []]; split; constructor.
  - destruct (drow_header r row R H) as (y & -> & TH & _). destruct (IH (S r) (plus_n_Sm _ _)) as ((fs & A & B) & figs & C & D).
    split; [exists fs; split; [apply vt_header; assumption | exact B] | exists figs; split; [apply vf_header; assumption | exact D]].
  - destruct (drow_data r row R H) as (y & -> & TH & SD & _). destruct (IH (S r) (plus_n_Sm _ _)) as ((fs & A & B) & figs & C & D).
    destruct (says_at _ _ _ K) as (kc & KC & KS). destruct (SD _ _ KC) as (ke & K1 & SK). destruct (SD _ _ CC) as (ce & C1 & SC).
    assert (VC : value_cells x (y_row y) ke ce) by (split; assumption).
    destruct (form_vrow r y k cc g ms ke ce T VC (td_says _ _ _ SK KS) SC SD) as ((f & RGV & FT) & figs0 & RF & F0). split.
    + exists (f :: fs). split; [apply vt_field; assumption | constructor; assumption].
    + exists (figs0 ++ figs). split; [|apply Forall2_app; assumption]. apply vf_row; try assumption. intros [X _]. exact (X _ _ VC).
  - destruct (drow_data r row R H) as (y & -> & TH & _ & SL). destruct (SL t LO) as [TX ON]. destruct (IH (S r) (plus_n_Sm _ _)) as ((fs & A & B) & figs & C & D).
    destruct (proj2 (goes_ell _ _ TX) (ex_intro _ _ E)) as (w' & E'). split.
    + exists (ellipsis_value :: fs). split; [apply vt_field; [exact TH | eapply vg_short_ellipsis; [exact (one_vshort x y ON W) | exact E'] | exact A] | constructor; [repeat split | exact B]].
    + exists ([] ++ figs). split; [|exact D]. apply vf_row; [exact TH | | right; split; [|reflexivity] | exact C].
      * intros [_ (v & X)]. exact (ell_notes _ _ _ E' X).
      * intros k0 c0 RC. destruct (one_vshort x y ON W _ _ RC).
  - destruct (drow_data r row R H) as (y & -> & TH & _ & SL). destruct (SL t LO) as [TX ON]. destruct (IH (S r) (plus_n_Sm _ _)) as ((fs & A & B) & figs & C & D).
    assert (NE' : forall v, lower (to_text (y_row y)) <> lbl_ellipsis ++ v) by (intros v X; destruct (proj1 (goes_ell _ _ TX) (ex_intro _ _ X)) as (v' & X'); exact (NE _ X')).
    assert (NN' : forall v, lower (to_text (y_row y)) <> utf8 "notes:" ++ v) by (intros v X; destruct (proj1 (goes_notes _ _ TX) (ex_intro _ _ X)) as (v' & X'); exact (NN _ X')). split.
    + exists fs. split; [apply vt_nothing; [exact TH | eapply vg_short; [exact (one_vshort x y ON W) | exact NE' | exact NN'] | exact A] | exact B].
    + exists ([] ++ figs). split; [|exact D]. apply vf_row; [exact TH | | right; split; [|reflexivity] | exact C].
      * intros [_ (v & X)]. exact (NN' _ X).
      * intros k0 c0 RC. destruct (one_vshort x y ON W _ _ RC).
  - destruct (drow_data r row R H) as (y & -> & TH & _ & SL). destruct (SL t LO) as [TX ON]. destruct (proj2 (goes_notes _ _ TX) (ex_intro _ _ E)) as (w' & E').
    split; [exists [] | exists []]; (split; [|constructor]).
    + eapply vt_stop; [exact TH | exact (one_vshort x y ON W) | exact E'].
    + apply vf_stop; [exact TH|]. split; [exact (one_vshort x y ON W) | eauto].
Qed.
End Rows.
