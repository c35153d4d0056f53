(** Proofs for C78: from the texts of a docx table to the fields of its figure. *)
From Coq Require Import NArith ZArith List Bool String Lia.
From Verif Require Import PyStr PyStrFacts Xml Docx Render Lint RowIter Helpers Extract Document
  SpecText SpecFields SpecLabel SpecHeader SpecRows SpecTable SpecDoc SpecRun SpecReads SpecFmt SpecDocx SpecGrid SpecHtml SpecTables SpecEnd SpecIter IterProofs ReadForms
  MFacts LabelProofs HeaderProofs RowProofs TableProofs GridProofs HtmlProofs TableHtml RestoreProofs
  Prop_Rows Prop_Label Prop_Docx Prop_Grid EndProofs EndRows SpecNames NameProofs CellRead.
From Verif Require DocProofs.
Import ListNotations.
Local Open Scope string_scope.
Local Open Scope list_scope.

Lemma Forall2_at {A B} (R : A -> B -> Prop) l m : Forall2 R l m -> forall j a, nth_error l j = Some a -> exists b, nth_error m j = Some b /\ R a b.
Proof. induction 1 as [|a b l m H _ IH]; intros [|j] a0 N; try discriminate; cbn in *; [injection N as <-; eauto | exact (IH j a0 N)]. Qed.

Section Figure.
Variables (tr cr : list (str * list (str * str))) (d : docx) (fuel : nat) (rows : list (list wcell)) (e : elem).
Notation pa := (parse_any d fuel).
Notation cshown := (cell_shown tr cr pa rows).

Lemma said_cell r row o j t : nth_error rows r = Some row -> Forall2 (cell_restored tr cr pa rows e r) (placed 0 row) (kids_of t_td o) ->
  says rows r j t -> exists td tl, nth_error (kids_of t_td o) j = Some (td, tl) /\ seen_cell td t /\ blank tl.
Proof.
  intros R F (row' & y & c & tc & R' & P & SA & CS). assert (row' = row) as -> by congruence.
  destruct (Forall2_at _ _ _ F j _ P) as ([td tl] & K & r0 & row0 & c0 & k0 & tr0 & tail & j0 & LE & R0 & I0 & SA0 & _ & _ & _ & CK & E). cbn [fst] in *.
  rewrite (C41_shown_unique _ _ _ _ _ SA SA0) in CS. destruct (cell_seen _ _ _ _ _ _ _ _ _ CK CS) as [SC BT]. exists td, tl. split; [exact K|].
  destruct (r0 =? r)%nat; [subst k0; auto|]. injection E as -> ->. split; [apply seen_del; exact SC | exact BT].
Qed.
Lemma said_td r row o j t : nth_error rows r = Some row -> Forall2 (cell_restored tr cr pa rows e r) (placed 0 row) (kids_of t_td o) ->
  says rows r j t -> exists td, nth_error (children t_td o) j = Some td /\ seen_cell td t.
Proof. intros R F S. destruct (said_cell _ _ _ _ _ R F S) as (td & tl & K & C & _). exists td. split; [|exact C]. unfold children. rewrite nth_error_map. exact (f_equal (option_map fst) K). Qed.
Lemma said_lone r row o t : nth_error rows r = Some row -> Forall2 (cell_restored tr cr pa rows e r) (placed 0 row) (kids_of t_td o) ->
  blank (e_text o) -> e_kids o = kids_of t_td o -> lone rows r t -> to_text o = t /\ exists td, children t_td o = [td].
Proof.
  intros R F BX EK ((c & RC) & S). assert (row = [c]) as -> by congruence. destruct (said_cell _ _ _ _ _ R F S) as (td & tl & K & C & BT).
  cbn [placed] in F. inversion F as [|? k ? ks _ F' E1 E2]; subst. inversion F'; subst. rewrite <- E2 in K. cbn in K. injection K as ->.
  split; [|exists td; unfold children; rewrite <- E2; reflexivity]. destruct o as [tg at_ xt ks]. cbn [e_text e_kids] in *. unfold to_text. rewrite itertext_elem, EK, <- E2. unfold flat_map. cbn [fst snd]. rewrite app_nil_r.
  destruct C as (p & tl' & tag & a & _ & _ & _ & C). apply C; assumption.
Qed.

(** ** Header rows *)
Lemma trimmed_says tc t : cell_says tc t -> SpecLabel.trimmed t.
Proof. intros (a & p & b & rs & xs & _ & _ & _ & _ & _ & _ & _ & T & _). exact T. Qed.
Lemma strip_trimmed t : SpecLabel.trimmed t -> strip t = t.
Proof. intros T. apply trims_unique. split; [exact T|]. exists [], []. split; [rewrite app_nil_r; reflexivity|]. split; constructor. Qed.
Lemma header_seen td t h : seen_cell td t -> SpecLabel.trimmed t -> column_header t h -> column_header (itertext td) h.
Proof.
  intros SC T (c & (t1 & t2 & t3 & A & B & C & D) & R). exists c. split; [|exact R]. exists t1, t2, t3. split; [|auto].
  pose proof (strip_trims (itertext td)) as S. change (strip (itertext td)) with (to_text td) in S. rewrite (seen_text _ _ SC) in S. apply trims_unique in A. rewrite (strip_trimmed _ T) in A. subst t1. exact S.
Qed.
Lemma headers_seen r row ks hs : Forall2 (cshown r) (own_cells row) ks -> row_headers row hs -> Forall2 (fun k h => column_header (itertext (fst k)) h) ks hs.
Proof.
  unfold row_headers. intros F. revert hs. induction F as [|p k own ks CK _ IH]; intros hs H; inversion H as [|? h ? hs' (t & CS & CH) H']; subst; constructor; [|exact (IH _ H')].
  destruct (cell_seen _ _ _ _ _ _ _ _ _ CK CS) as [SC _]. exact (header_seen _ _ _ SC (trimmed_says _ _ CS) CH).
Qed.
Lemma wide_colspan r row ks ts x : Forall2 (cshown r) (own_cells row) ks -> wide_texts row ts -> extract_possible_colspan (Elem t_tr [] x ks) = List.concat ts.
Proof.
  unfold wide_texts, extract_possible_colspan, find_colspan. cbn [e_kids]. intros F. revert ts. induction F as [|p k own ks CK _ IH]; intros ts H; cbn [filter] in H.
  - inversion H; subst. reflexivity.
  - assert (A : attr a_colspan (fst k) = span_written (wc_span (snd p))) by (destruct CK as (a & kk & tail & n & us & s1 & s2 & -> & _ & A & _); exact A).
    cbn [flat_map]. rewrite A. unfold span_written. destruct (1 <? wc_span (snd p))%nat.
    + inversion H as [|? t ? ts' CS H']; subst. destruct (cell_seen _ _ _ _ _ _ _ _ _ CK CS) as [(q & tl & tag & a & -> & _ & E & _) _]. cbn [e_kids map fst flat_map app List.concat]. rewrite E.
      f_equal. exact (IH _ H').
    + exact (IH _ H).
Qed.
End Figure.

Lemma skipn_at {A} (l : list A) r y : nth_error l r = Some y -> skipn r l = y :: skipn (S r) l.
Proof. revert l. induction r as [|r IH]; intros [|a l] H; try discriminate; cbn in *; [injection H as <-; reflexivity | exact (IH l H)]. Qed.

Section Rows.
Variables (tr cr : list (str * list (str * str))) (d : docx) (fuel : nat) (rows : list (list wcell)) (e : elem).
Variables (rest : list kid) (ys : list yrow).
Notation pa := (parse_any d fuel).
Notation cshown := (cell_shown tr cr pa rows).
Hypothesis LN : List.length ys = pred (List.length rows).
Hypothesis RW : forall r row, nth_error rows (S r) = Some row -> exists y, nth_error ys r = Some y
       /\ (header_row row -> contains_th (y_row y) = true /\ exists x ks tail, y_row y = Elem t_tr [] x ks /\ nth_error rest r = Some (y_row y, tail)
             /\ blank x /\ Forall2 (cshown (S r)) (own_cells row) ks)
       /\ (~ header_row row -> contains_th (y_row y) = false /\ blank (e_text (y_row y)) /\ e_kids (y_row y) = kids_of t_td (y_row y)
             /\ Forall2 (cell_restored tr cr pa rows e (S r)) (placed 0 row) (kids_of t_td (y_row y))).
Variable x : xctx.

Lemma rows_end r : nth_error rows (S r) = None -> skipn r ys = [].
Proof. intros N. apply nth_error_None in N. apply skipn_all2. rewrite LN. lia. Qed.
Lemma row_header r row : nth_error rows (S r) = Some row -> header_row row -> exists y, skipn r ys = y :: skipn (S r) ys /\ children t_th (y_row y) <> []
  /\ forall ts, wide_texts row ts -> (announces_list (y_row y) = true <-> names_list ts).
Proof.
  intros R H. destruct (RW r row R) as (y & Y & A & _). destruct (A H) as (T & x0 & ks & tail & E & _ & _ & F). exists y. split; [apply skipn_at; exact Y|].
  split; [intros X; apply contains_th_children in X; congruence|]. intros ts W. rewrite <- list_header_spec. unfold is_list_header. rewrite E, (wide_colspan _ _ _ _ _ _ _ _ _ x0 F W). apply contains_app.
Qed.
Lemma row_data r row : nth_error rows (S r) = Some row -> ~ header_row row -> exists y, skipn r ys = y :: skipn (S r) ys /\ children t_th (y_row y) = []
  /\ (forall j t, says rows (S r) j t -> exists td, nth_error (children t_td (y_row y)) j = Some td /\ seen_cell td t)
  /\ (forall t, lone rows (S r) t -> to_text (y_row y) = t /\ exists td, children t_td (y_row y) = [td]).
Proof.
  intros R H. destruct (RW r row R) as (y & Y & _ & A). destruct (A H) as (T & BX & EK & F). exists y. split; [apply skipn_at; exact Y|].
  split; [apply contains_th_children; exact T|]. split; intros.
  - eapply said_td; eassumption.
  - eapply said_lone; eassumption.
Qed.
Lemma said_cells y k l c : (forall j t, In (j, t) [(x_key x, k); (x_label x, l); (x_content x, c)] -> exists td, nth_error (children t_td (y_row y)) j = Some td /\ seen_cell td t) ->
  exists ke ce le, SpecTable.row_cells x (y_row y) ke ce le /\ to_text ke = k /\ to_text ce = c /\ to_text le = l /\ children t_table ce = []
    /\ exists td, nth_error (children t_td (y_row y)) (x_label x) = Some td /\ nth_error (children t_p td) 0 = Some le.
Proof.
  intros H. destruct (H _ _ (or_introl eq_refl)) as (ke & K & SK). destruct (H _ _ (or_intror (or_introl eq_refl))) as (td & L & SL).
  destruct (H _ _ (or_intror (or_intror (or_introl eq_refl)))) as (ce & C & SC). destruct (seen_p _ _ SL) as (le & P & TL).
  exists ke, ce, le. split; [split; [exact K|]; split; [exact C | eauto]|]. split; [apply seen_text, SK|]. split; [apply seen_text, SC|]. split; [exact TL|]. split; [exact (seen_tables _ _ SC) | eauto].
Qed.
Lemma lone_short y : (exists td, children t_td (y_row y) = [td]) -> wide x -> forall k c l, ~ SpecTable.row_cells x (y_row y) k c l.
Proof.
  intros (td & E) W k c l (K & C & q & L & _). rewrite E in K, C, L. unfold wide in W.
  destruct (x_key x) as [|i]; [|destruct i; discriminate]. destruct (x_content x) as [|j]; [|destruct j; discriminate]. destruct (x_label x) as [|n]; [lia | destruct n; discriminate].
Qed.

Lemma texts_row y dyn k l c f ke ce le : texts_give x dyn k l c f -> SpecTable.row_cells x (y_row y) ke ce le ->
  to_text ke = k -> to_text ce = c -> to_text le = l -> row_gives x dyn y f.
Proof.
  intros G RC <- <- <-. destruct G as [r raw lbl b A B C D E N K | A | r lbl A B C D | r A B C D].
  - eapply rg_regular; eassumption.
  - eapply rg_special_range; eassumption.
  - eapply rg_special_content; eassumption.
  - eapply rg_special_other; eassumption.
Qed.

Lemma docx_rows n dyn fs : docx_gives x rows n dyn fs -> forall r, n = S r -> rows_give x dyn (skipn r ys) fs.
Proof.
  induction 1 as [n dyn N | n dyn row ts fs R H W NL G IH | n dyn row ts fs R H W NL G IH | n dyn row k l c f fs R H K L C T G IH
    | n dyn row t u fs R H W LO E G IH | n dyn row t fs R H W LO NE NN HD G IH | n dyn row t u R H W LO E]; intros r ->.
  - rewrite (rows_end r N). constructor.
  - destruct (row_header r row R H) as (y & -> & TH & LH). apply tg_header; [exact TH|]. specialize (LH ts W). destruct (announces_list (y_row y)); [destruct NL; apply LH; reflexivity|].
    rewrite orb_false_r. exact (IH _ eq_refl).
  - destruct (row_header r row R H) as (y & -> & TH & LH). apply tg_header; [exact TH|]. rewrite (proj2 (LH ts W) NL), orb_true_r. exact (IH _ eq_refl).
  - destruct (row_data r row R H) as (y & -> & TH & SD & _). destruct (said_cells y k l c) as (ke & ce & le & RC & TK & TC & TL & _).
    { intros j t [[= <- <-]|[[= <- <-]|[[= <- <-]|[]]]]; apply SD; assumption. }
    pose proof (texts_row y dyn k l c f ke ce le T RC TK TC TL) as RG. destruct f; [apply tg_field | apply tg_nothing]; try assumption; exact (IH _ eq_refl).
  - destruct (row_data r row R H) as (y & -> & TH & _ & SL). destruct (SL t LO) as [TX ON]. apply tg_field; [exact TH | | exact (IH _ eq_refl)].
    eapply rg_ellipsis; [exact (lone_short y ON W) | rewrite TX; exact E].
  - destruct (row_data r row R H) as (y & -> & TH & _ & SL). destruct (SL t LO) as [TX ON]. apply tg_nothing; [exact TH | | exact (IH _ eq_refl)].
    eapply rg_tolerated; [exact (lone_short y ON W) | rewrite TX; exact NE | rewrite TX; exact NN|]. unfold tolerated. rewrite HD. exact ON.
  - destruct (row_data r row R H) as (y & -> & TH & _ & SL). destruct (SL t LO) as [TX ON]. apply tg_stop; [exact TH|]. eapply re_note; [exact (lone_short y ON W) | rewrite TX; exact E].
Qed.

(** No figure is nested in the rows. *)
Lemma docx_figs n dyn fs : docx_gives x rows n dyn fs -> forall r a b figs, n = S r -> skipn r ys = a ++ b -> rows_figs x dyn a figs -> figs = [].
Proof.
  induction 1 as [n dyn N | n dyn row ts fs R H W NL G IH | n dyn row ts fs R H W NL G IH | n dyn row k l c f fs R H K L C T G IH
    | n dyn row t u fs R H W LO E G IH | n dyn row t fs R H W LO NE NN HD G IH | n dyn row t u R H W LO E]; intros r a b figs -> EQ RF.
  - rewrite (rows_end r N) in EQ. destruct a; [|discriminate]. inversion RF. reflexivity.
  - destruct (row_header r row R H) as (y & E & TH & LH). rewrite E in EQ. destruct a as [|y' a]; [inversion RF; reflexivity|]. injection EQ as <- EQ. inversion RF; subst; try congruence.
    specialize (LH ts W). destruct (announces_list (y_row y)); [destruct NL; apply LH; reflexivity|]. rewrite orb_false_r in *. eapply IH; [reflexivity | exact EQ | eassumption].
  - destruct (row_header r row R H) as (y & E & TH & LH). rewrite E in EQ. destruct a as [|y' a]; [inversion RF; reflexivity|]. injection EQ as <- EQ. inversion RF; subst; try congruence.
    rewrite (proj2 (LH ts W) NL), orb_true_r in *. eapply IH; [reflexivity | exact EQ | eassumption].
  - destruct (row_data r row R H) as (y & E & TH & SD & _). rewrite E in EQ. destruct a as [|y' a]; [inversion RF; reflexivity|]. injection EQ as <- EQ.
    destruct (said_cells y k l c) as (ke & ce & le & RC & TK & TC & TL & NT & _). { intros j t [[= <- <-]|[[= <- <-]|[[= <- <-]|[]]]]; apply SD; assumption. }
    inversion RF as [|? ? ? ? X|? ? ? fa fb _ NE RF1 RF2|? ? ? _ RE]; subst; [congruence | | reflexivity].
    assert (fa = []) as ->. { destruct RF1 as [(k1 & c1 & l1 & rg & RC1 & _ & _ & _ & _ & ->) | (_ & ->)]; [|reflexivity]. assert (c1 = ce) as -> by (destruct RC as (_ & A & _), RC1 as (_ & B & _); congruence).
      unfold nested_in. rewrite NT. reflexivity. }
    eapply IH; [reflexivity | exact EQ | eassumption].
  - destruct (row_data r row R H) as (y & E1 & TH & _ & SL). rewrite E1 in EQ. destruct a as [|y' a]; [inversion RF; reflexivity|]. injection EQ as <- EQ. destruct (SL t LO) as [TX ON].
    inversion RF as [|? ? ? ? X|? ? ? fa fb _ NE RF1 RF2|? ? ? _ RE]; subst; [congruence | | reflexivity].
    assert (fa = []) as ->. { destruct RF1 as [(k1 & c1 & l1 & rg & RC1 & _) | (_ & ->)]; [|reflexivity]. destruct (lone_short y ON W _ _ _ RC1). }
    eapply IH; [reflexivity | exact EQ | eassumption].
  - destruct (row_data r row R H) as (y & E1 & TH & _ & SL). rewrite E1 in EQ. destruct a as [|y' a]; [inversion RF; reflexivity|]. injection EQ as <- EQ. destruct (SL t LO) as [TX ON].
    inversion RF as [|? ? ? ? X|? ? ? fa fb _ NE' RF1 RF2|? ? ? _ RE]; subst; [congruence | | reflexivity].
    assert (fa = []) as ->. { destruct RF1 as [(k1 & c1 & l1 & rg & RC1 & _) | (_ & ->)]; [|reflexivity]. destruct (lone_short y ON W _ _ _ RC1). }
    eapply IH; [reflexivity | exact EQ | eassumption].
  - destruct (row_data r row R H) as (y & E1 & TH & _ & SL). rewrite E1 in EQ. destruct a as [|y' a]; [inversion RF; reflexivity|]. injection EQ as <- EQ. destruct (SL t LO) as [TX ON].
    inversion RF as [|? ? ? ? X|? ? ? fa fb _ NE' RF1 RF2|? ? ? _ RE]; subst; [congruence | | reflexivity].
    destruct NE'. eapply re_note; [exact (lone_short y ON W) | exact E].
Qed.

(** ** Value tables *)
Variable ov : overrides.
Lemma lone_vshort y : (exists td, children t_td (y_row y) = [td]) -> (1 <= x_key x \/ 1 <= x_content x)%nat -> forall k c, ~ value_cells x (y_row y) k c.
Proof.
  intros (td & E) W k c (K & C). rewrite E in K, C.
  destruct (x_key x) as [|i]; [|destruct i; discriminate]. destruct (x_content x) as [|j]; [lia | destruct j; discriminate].
Qed.
Lemma texts_vrow y k l c f ke ce : texts_value ov x k l c f -> value_cells x (y_row y) ke ce -> to_text ke = k -> to_text ce = c ->
  (exists td p, nth_error (children t_td (y_row y)) (x_label x) = Some td /\ nth_error (children t_p td) 0 = Some p /\ to_text p = l) ->
  (exists p, nth_error (children t_p ce) 0 = Some p /\ to_text p = c) -> vrow_gives ov x y (Some f).
Proof.
  intros G VC <- TC LB CB. destruct G as [A | lbl b A B K | lbl b A B C K].
  - eapply vg_ellipsis; eassumption.
  - rewrite <- TC in K. eapply vg_override; eassumption.
  - rewrite <- TC in K. destruct LB as (td & p & T & P & L). eapply vg_label; try eassumption. exists td, p. destruct (children t_p td) as [|p' ps] eqn:E; [discriminate|].
    injection P as <-. exists ps. auto.
Qed.
Lemma docx_vrows n fs : docx_values ov x rows n fs -> forall r, n = S r -> vrows_give ov x (skipn r ys) fs.
Proof.
  induction 1 as [n N | n row fs R H G IH | n row k l c f fs R H K L C T G IH
    | n row t u fs R H W LO E G IH | n row t fs R H W LO NE NN G IH | n row t u R H W LO E]; intros r ->.
  - rewrite (rows_end r N). constructor.
  - destruct (row_header r row R H) as (y & -> & TH & _). apply vt_header; [exact TH | exact (IH _ eq_refl)].
  - destruct (row_data r row R H) as (y & -> & TH & SD & _). apply vt_field; [exact TH | | exact (IH _ eq_refl)].
    destruct (SD _ _ K) as (ke & K1 & SK). destruct (SD _ _ L) as (td & L1 & SL). destruct (SD _ _ C) as (ce & C1 & SC). destruct (seen_p _ _ SL) as (p & P & TL).
    eapply texts_vrow; [exact T | split; eassumption | apply seen_text, SK | apply seen_text, SC | eauto | exact (seen_p _ _ SC)].
  - destruct (row_data r row R H) as (y & -> & TH & _ & SL). destruct (SL t LO) as [TX ON]. apply vt_field; [exact TH | | exact (IH _ eq_refl)].
    eapply vg_short_ellipsis; [exact (lone_vshort y ON W) | rewrite TX; exact E].
  - destruct (row_data r row R H) as (y & -> & TH & _ & SL). destruct (SL t LO) as [TX ON]. apply vt_nothing; [exact TH | | exact (IH _ eq_refl)].
    eapply vg_short; [exact (lone_vshort y ON W) | rewrite TX; exact NE | rewrite TX; exact NN].
  - destruct (row_data r row R H) as (y & -> & TH & _ & SL). destruct (SL t LO) as [TX ON]. eapply vt_stop; [exact TH | exact (lone_vshort y ON W) | rewrite TX; exact E].
Qed.
Lemma docx_vfigs n fs : docx_values ov x rows n fs -> forall r a b figs, n = S r -> skipn r ys = a ++ b -> vrows_figs x a figs -> figs = [].
Proof.
  induction 1 as [n N | n row fs R H G IH | n row k l c f fs R H K L C T G IH
    | n row t u fs R H W LO E G IH | n row t fs R H W LO NE NN G IH | n row t u R H W LO E]; intros r a b figs -> EQ RF.
  - rewrite (rows_end r N) in EQ. destruct a; [|discriminate]. inversion RF. reflexivity.
  - destruct (row_header r row R H) as (y & E & TH & _). rewrite E in EQ. destruct a as [|y' a]; [inversion RF; reflexivity|]. injection EQ as <- EQ. inversion RF; subst; try congruence.
    eapply IH; [reflexivity | exact EQ | eassumption].
  - destruct (row_data r row R H) as (y & E & TH & SD & _). rewrite E in EQ. destruct a as [|y' a]; [inversion RF; reflexivity|]. injection EQ as <- EQ.
    destruct (SD _ _ C) as (ce & C1 & SC).
    inversion RF as [|? ? ? X|? ? fa fb _ NE RF1 RF2|? ? _ RE]; subst; [congruence | | reflexivity].
    assert (fa = []) as ->. { destruct RF1 as [(k1 & c1 & RC1 & _ & ->) | (_ & ->)]; [|reflexivity]. assert (c1 = ce) as -> by (destruct RC1 as (_ & B); congruence).
      unfold nested_in. rewrite (seen_tables _ _ SC). reflexivity. }
    eapply IH; [reflexivity | exact EQ | eassumption].
  - destruct (row_data r row R H) as (y & E1 & TH & _ & SL). rewrite E1 in EQ. destruct a as [|y' a]; [inversion RF; reflexivity|]. injection EQ as <- EQ. destruct (SL t LO) as [TX ON].
    inversion RF as [|? ? ? X|? ? fa fb _ NE RF1 RF2|? ? _ RE]; subst; [congruence | | reflexivity].
    assert (fa = []) as ->. { destruct RF1 as [(k1 & c1 & RC1 & _) | (_ & ->)]; [|reflexivity]. destruct (lone_vshort y ON W _ _ RC1). }
    eapply IH; [reflexivity | exact EQ | eassumption].
  - destruct (row_data r row R H) as (y & E1 & TH & _ & SL). rewrite E1 in EQ. destruct a as [|y' a]; [inversion RF; reflexivity|]. injection EQ as <- EQ. destruct (SL t LO) as [TX ON].
    inversion RF as [|? ? ? X|? ? fa fb _ NE' RF1 RF2|? ? _ RE]; subst; [congruence | | reflexivity].
    assert (fa = []) as ->. { destruct RF1 as [(k1 & c1 & RC1 & _) | (_ & ->)]; [|reflexivity]. destruct (lone_vshort y ON W _ _ RC1). }
    eapply IH; [reflexivity | exact EQ | eassumption].
  - destruct (row_data r row R H) as (y & E1 & TH & _ & SL). rewrite E1 in EQ. destruct a as [|y' a]; [inversion RF; reflexivity|]. injection EQ as <- EQ. destruct (SL t LO) as [TX ON].
    inversion RF as [|? ? ? X|? ? fa fb _ NE' RF1 RF2|? ? _ RE]; subst; [congruence | | reflexivity].
    destruct NE'. split; [exact (lone_vshort y ON W) | eauto].
Qed.
End Rows.

(** ** The figure *)
Section Whole.
Variables (tr cr : list (str * list (str * str))) (d : docx) (tbl : welem) (rows : list (list wcell)) (e : elem) (P : parser).
Hypothesis RG : regular tbl rows.
Hypothesis RD : renders d tr cr tbl e.
Variables (title : str) (x : xctx) (b : body).
Hypothesis FT : figure_table P rows title x b.

Theorem figure_read : exists tb, identified e (x_meta x) tb /\ handled P (x_meta x) tb x /\ table_gives P x tb b
  /\ comes_to_end x tb /\ forall n, ~ nested_figure x tb n.
Proof.
  destruct RD as (u & (fuel & s & s' & PT) & SW). destruct FT as (TL & (id & hrow & hs & TI & H1 & HH & HS & XM & CH & UC) & G).
  destruct (fig_title tr cr d fuel tbl rows s u s' e RG PT SW title hrow TL H1 HH) as (tr0 & tl0 & rest & ys & EK & T0 & TT & UW & RI & LN & RW).
  assert (Hx : x_fig x <> []).
  { unfold x_fig. rewrite XM. cbn [m_fig]. exact (DocProofs.title_id_nonempty _ _ TI). }
  exists (Elem (e_tag e) (e_attrs e) (e_text e) rest). split; [|split; [|split; [|split]]].
  - exists e, tr0, tl0, [], rest, id. split; [exact UW|]. split; [exact EK|]. split; [exact T0|]. split; [constructor|]. rewrite TT. split; [exact TI|]. split; [exact XM | reflexivity].
  - split; [reflexivity|]. exists hs. split; [|split; [rewrite XM; exact CH | exact UC]].
    destruct (RW 0 hrow H1) as (y & Y & A & _). destruct (A HH) as (_ & x0 & ks & tail & E & R & _ & F). rewrite E in R.
    destruct rest as [|q rest']; [discriminate|]. cbn [nth_error] in R. injection R as ->. unfold table_headers, children, kids_of. cbn [e_kids filter fst e_tag]. rewrite seqb_refl. cbn [map fst e_kids].
    exact (headers_seen _ _ _ _ _ _ _ _ _ F HS).
  - apply gives_form. rewrite RI. cbn [fst]. destruct b as [k fields|fields].
    + destruct G as (K & fs & G & E). split; [exact K|]. exists fs. split; [|exact E]. exact (docx_rows tr cr d fuel rows e rest ys LN RW x _ _ _ G 0 eq_refl).
    + destruct G as (K & G). split; [exact K|]. exact (docx_vrows tr cr d fuel rows e rest ys LN RW x _ _ _ G 0 eq_refl).
  - apply ends_form. left. rewrite RI. reflexivity.
  - intros n NF. apply nested_form in NF as (a & c & figs & E & TF & IN). rewrite RI in E. cbn [fst] in E. unfold table_figs in TF. assert (figs = []) as ->; [|destruct IN]. destruct b as [k fields|fields].
    + destruct G as (K & fs & G & _). rewrite K in TF. exact (docx_figs tr cr d fuel rows e rest ys LN RW x _ _ _ G 0 a c figs eq_refl E TF).
    + destruct G as (K & G). rewrite K in TF. exact (docx_vfigs tr cr d fuel rows e rest ys LN RW x _ _ _ G 0 a c figs eq_refl E TF).
Qed.
End Whole.
