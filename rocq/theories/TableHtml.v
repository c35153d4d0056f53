(** The table written for a docx table. *)
From Coq Require Import NArith ZArith List Bool String Lia ZifyBool ZifyNat ZifyN.
From Verif Require Import PyStr PyStrFacts RangeProofs Xml RowIter Docx Render SpecFmt SpecGrid SpecHtml GridProofs.
Import ListNotations.
Local Open Scope string_scope.
Local Open Scope list_scope.
Local Open Scope nat_scope.

(** ** Parsing the cells *)

Section Parse.
Variable pa : list welem -> seen -> dres (list hunit * seen).

Definition cell_of (p : nat * gcell) (t : tcell) : Prop :=
  exists us s1 s2, pa (w_kids (g_cell (snd p))) s1 = DOk (us, s2)
    /\ t = TC (cell_tag (g_cell (snd p))) us (g_colspan (snd p), g_rowspan (snd p)) (g_left (snd p), g_top (snd p)) (cell_fill (g_cell (snd p))).

Lemma parse_row_cells row : forall s ts s', parse_row pa row s = DOk (ts, s') -> Forall2 cell_of row ts.
Proof.
  induction row as [|[i g] row IH]; intros s ts s' H; cbn [parse_row] in H.
  - injection H as <- <-. constructor.
  - destruct (pa (w_kids (g_cell g)) s) as [[us s1]| |] eqn:E; cbn in H; try discriminate.
    destruct (parse_row pa row s1) as [[ts1 s2]| |] eqn:E2; cbn in H; try discriminate. injection H as <- <-.
    constructor; [|exact (IH _ _ _ E2)]. exists us, s, s1. split; [exact E | reflexivity].
Qed.
Lemma parse_rows_cells rows : forall s ts s', parse_rows pa rows s = DOk (ts, s') -> Forall2 (Forall2 cell_of) rows ts.
Proof.
  induction rows as [|row rows IH]; intros s ts s' H; cbn [parse_rows] in H.
  - injection H as <- <-. constructor.
  - destruct (parse_row pa row s) as [[us s1]| |] eqn:E; cbn in H; try discriminate.
    destruct (parse_rows pa rows s1) as [[ts1 s2]| |] eqn:E2; cbn in H; try discriminate. injection H as <- <-.
    constructor; [exact (parse_row_cells _ _ _ _ E) | exact (IH _ _ _ E2)].
Qed.
Lemma parse_table_cells tbl s u s' : parse_table pa tbl s = DOk (Some u, s') ->
  exists m rows, grid tbl = DOk m /\ u = HTable (w_id tbl) (find_id rows) rows /\ Forall2 (Forall2 cell_of) m rows.
Proof.
  unfold parse_table. destruct (mem_id (w_id tbl) s); [discriminate|].
  destruct (grid tbl) as [m| |]; cbn; try discriminate. destruct (parse_rows pa m (w_id tbl :: s)) as [[rows s1]| |] eqn:E; cbn; try discriminate.
  intros [= <- <-]. exists m, rows. split; [reflexivity|]. split; [reflexivity|]. exact (parse_rows_cells _ _ _ _ E).
Qed.
End Parse.

(** ** Skipping *)

Section Show.
Variables (tr cr : list (str * list (str * str))).

Lemma cells_skip y : forall a x b ks, (forall k t, nth_error a k = Some t -> tc_origin t <> ((x + Z.of_nat k)%Z, y)) ->
  cells_show tr cr y x (a ++ b) ks -> cells_show tr cr y (x + Z.of_nat (List.length a))%Z b ks.
Proof.
  induction a as [|t a IH]; intros x b ks H S; cbn [app] in S.
  - cbn. rewrite Z.add_0_r. exact S.
  - inversion S as [|? ? ? ? ? O S'|? ? ? ? ? ? ? ? O]; subst.
    + apply (IH (x + 1)%Z) in S'.
      * cbn [List.length]. replace (x + Z.of_nat (Datatypes.S (List.length a)))%Z with (x + 1 + Z.of_nat (List.length a))%Z by lia. exact S'.
      * intros k t' N. specialize (H (Datatypes.S k) t' N). replace (x + 1 + Z.of_nat k)%Z with (x + Z.of_nat (Datatypes.S k))%Z by lia. exact H.
    + exfalso. apply (H 0 t eq_refl). rewrite O. f_equal. lia.
Qed.

Section Row.
Variables (pa : list welem -> seen -> dres (list hunit * seen)) (rows : list (list wcell)) (h : heap) (m : list (list nat)) (r : nat).
Hypothesis I : INV rows h m.
Hypothesis POS : Forall (Forall (fun c => 1 <= wc_span c)) rows.
Hypothesis T : forall r row, nth_error rows r = Some row -> TRrow r row m h.
Hypothesis AT : forall r x, (exists i, at_pos m r x = Some i) <-> exists row, nth_error rows r = Some row /\ x < spans row.

Lemma covered rr rw y c z : nth_error rows rr = Some rw -> begins rw y c -> y <= z < y + wc_span c ->
  exists i g, at_pos m rr z = Some i /\ at_pos m rr y = Some i /\ nth_error h i = Some g /\ g_colspan g = Z.of_nat (wc_span c) /\ g_left g = Z.of_nat y
    /\ (wc_cont c = false -> g_top g = Z.of_nat rr) /\ (wc_cont c = true -> exists r', rr = S r' /\ at_pos m r' y = Some i).
Proof.
  intros Hr B Z. destruct (T rr rw Hr y c B) as (i & g & K & Hg & CS & NC & CC). exists i, g.
  pose proof (K (z - y) ltac:(lia)) as K1. replace (y + (z - y)) with z in K1 by lia.
  pose proof (K 0 ltac:(lia)) as K0. replace (y + 0) with y in K0 by lia.
  pose proof (K (wc_span c - 1) ltac:(lia)) as K2.
  apply (inv_pos _ _ _ I) in K0 as K0'. apply (inv_pos _ _ _ I) in K2 as K2'.
  destruct K0' as (g' & G' & In0). rewrite Hg in G'. injection G' as <-. destruct K2' as (g' & G' & In2). rewrite Hg in G'. injection G' as <-.
  split; [exact K1|]. split; [exact K0|]. split; [exact Hg|]. split; [exact CS|].
  destruct In0 as [_ In0], In2 as [_ In2]. unfold g_colspan in CS. split; [lia|]. split; [intros C; apply NC; exact C | exact CC].
Qed.

Lemma row_pos rr rw y c : nth_error rows rr = Some rw -> begins rw y c -> 1 <= wc_span c.
Proof.
  intros Hr (A & B & -> & _). rewrite Forall_forall in POS. specialize (POS _ (nth_error_In _ _ Hr)).
  apply Forall_app in POS as [_ X]. apply Forall_inv in X. exact X.
Qed.

Lemma element_height x i g : at_pos m r x = Some i -> nth_error h i = Some g -> g_top g = Z.of_nat r -> g_left g = Z.of_nat x ->
  height rows r x (Z.to_nat (g_rowspan g)).
Proof.
  intros A Hg Top Left. destruct (inv_ok _ _ _ I _ _ Hg) as [O1 O2]. unfold g_rowspan. split; [lia|].
  assert (IN : forall k, (Z.of_nat k <= g_bottom g - g_top g)%Z -> at_pos m (r + k) x = Some i).
  { intros k K. apply (inv_pos _ _ _ I). exists g. split; [exact Hg|]. unfold inside. lia. }
  split.
  - intros k K. pose proof (IN k ltac:(lia)) as P. destruct (proj1 (AT _ _) (ex_intro _ _ P)) as (rw & Hr & X).
    assert (PR : Forall (fun c => 1 <= wc_span c) rw) by (rewrite Forall_forall in POS; apply POS; eapply nth_error_In; exact Hr).
    destruct (covering rw x PR X) as (y & c & B & Y). destruct (covered _ _ _ _ x Hr B Y) as (j & g' & P' & _ & Hg' & CS & L' & NC & CC).
    rewrite P in P'. injection P' as <-. rewrite Hg in Hg'. injection Hg' as <-. assert (y = x) as -> by lia.
    exists rw, c. split; [exact Hr|]. split; [exact B|]. destruct (wc_cont c); [reflexivity|]. specialize (NC eq_refl). lia.
  - intros (rw & c & Hr & B & C). pose proof (row_pos _ _ _ _ Hr B) as SP.
    destruct (covered _ _ _ _ x Hr B ltac:(lia)) as (j & g' & P & _ & Hg' & _ & _ & _ & CC). destruct (CC C) as (r' & E & P').
    pose proof (IN (Z.to_nat (g_bottom g - g_top g)) ltac:(lia)) as Q. replace (r + Z.to_nat (g_bottom g - g_top g)) with r' in Q by lia.
    rewrite P' in Q. injection Q as ->. apply (inv_pos _ _ _ I) in P as (g2 & G2 & In2). rewrite Hg in G2. injection G2 as <-.
    unfold inside in In2. lia.
Qed.

Variable row : list wcell.
Hypothesis R : nth_error rows r = Some row.

Lemma cells_own : forall cs A gs ts ks, row = A ++ cs -> List.length gs = spans cs ->
  (forall k p, nth_error gs k = Some p -> at_pos m r (spans A + k) = Some (fst p) /\ nth_error h (fst p) = Some (snd p)) ->
  Forall2 (cell_of pa) gs ts -> cells_show tr cr (Z.of_nat r) (Z.of_nat (spans A)) ts ks ->
  Forall2 (cell_shown tr cr pa rows r) (filter (fun p => negb (wc_cont (snd p))) (placed (spans A) cs)) ks.
Proof.
  induction cs as [|c cs IH]; intros A gs ts ks ER L G F S.
  - destruct gs; [|discriminate]. inversion F; subst. inversion S; subst. constructor.
  - rewrite spans_cons in L. assert (B : begins row (spans A) c) by (exists A, cs; auto).
    pose proof (row_pos _ _ _ _ R B) as SP.
    rewrite <- (firstn_skipn (wc_span c) gs) in F. apply Forall2_app_inv_l in F as (t1 & t2 & F1 & F2 & ->).
    assert (L1 : List.length (firstn (wc_span c) gs) = wc_span c) by (rewrite firstn_length; lia).
    assert (L1' : List.length t1 = wc_span c) by (rewrite <- (Forall2_length _ _ _ F1); exact L1).
    assert (NX : forall ks', cells_show tr cr (Z.of_nat r) (Z.of_nat (spans A + wc_span c)) t2 ks' ->
       Forall2 (cell_shown tr cr pa rows r) (filter (fun p => negb (wc_cont (snd p))) (placed (spans A + wc_span c) cs)) ks').
    { intros ks' S'. replace (spans A + wc_span c) with (spans (A ++ [c])) by (rewrite spans_app, spans_cons; cbn; lia).
      apply (IH (A ++ [c]) (skipn (wc_span c) gs) t2).
      - rewrite <- app_assoc. exact ER.
      - rewrite skipn_length. lia.
      - intros k p N. rewrite spans_app, spans_cons. change (spans []) with 0. rewrite Nat.add_0_r, <- Nat.add_assoc. apply G.
        rewrite <- (firstn_skipn (wc_span c) gs), nth_error_app2 by lia. rewrite L1. replace (wc_span c + k - wc_span c) with k by lia. exact N.
      - exact F2.
      - rewrite spans_app, spans_cons. change (spans []) with 0. rewrite Nat.add_0_r. exact S'. }
    (* the elements at the positions of the cell *)
    destruct (covered _ _ _ _ (spans A) R B ltac:(lia)) as (i & g & P0 & _ & Hg & CS & GL & NC & CC).
    assert (SAME : forall k p, nth_error (firstn (wc_span c) gs) k = Some p -> p = (i, g)).
    { intros k p N. assert (k < wc_span c) by (rewrite <- L1; apply nth_error_Some; congruence).
      assert (nth_error gs k = Some p) as N' by (rewrite <- (firstn_skipn (wc_span c) gs), nth_error_app1 by lia; exact N).
      destruct (G k p N') as [Q1 Q2]. destruct (covered _ _ _ _ (spans A + k) R B ltac:(lia)) as (i2 & g2 & P2 & P3 & Hg2 & _).
      rewrite P0 in P3. injection P3 as <-. rewrite Q1 in P2. injection P2 as <-. destruct p as [pi pg]. cbn [fst snd] in *. rewrite Hg in Q2. injection Q2 as <-. reflexivity. }
    assert (ORI : forall k t, nth_error t1 k = Some t -> tc_origin t = (g_left g, g_top g)).
    { intros k t N. assert (EX : exists p, nth_error (firstn (wc_span c) gs) k = Some p /\ cell_of pa p t).
      { clear - F1 N. revert k N. induction F1 as [|p t0 a b H _ IH]; intros [|k] N; try discriminate; [injection N as <-; exists p; split; [reflexivity | exact H] | exact (IH k N)]. }
      destruct EX as (p & Np & us & s1 & s2 & _ & ->). rewrite (SAME _ _ Np). reflexivity. }
    cbn [placed filter snd].
    destruct (wc_cont c) eqn:CO; cbn [negb].
    + apply NX. replace (Z.of_nat (spans A + wc_span c)) with (Z.of_nat (spans A) + Z.of_nat (List.length t1))%Z by lia.
      apply (cells_skip (Z.of_nat r) t1 (Z.of_nat (spans A)) t2 ks); [|exact S]. intros k t N. rewrite (ORI _ _ N). intros [= _ E].
      destruct (CC eq_refl) as (r' & -> & P'). apply (inv_pos _ _ _ I) in P' as (g2 & G2 & In2). rewrite Hg in G2. injection G2 as <-. unfold inside in In2. lia.
    + (* a cell of its own *)
      destruct t1 as [|t t1]; [cbn in L1'; lia|]. destruct (firstn (wc_span c) gs) as [|p fs] eqn:EF; [inversion F1|].
      pose proof (SAME 0 p eq_refl) as ->. inversion F1 as [|? ? ? ? C1 F1']; subst. destruct C1 as (us & s1 & s2 & PA & ET). cbn [fst snd] in PA, ET.
      specialize (NC eq_refl).
      cbn [app] in S. inversion S as [|? ? ? ? ? O S'|? ? ? ? a ks1 tail rest O AT1 US BT S']; subst.
      * exfalso. apply O. rewrite (ORI 0 _ eq_refl). cbn [nth_error]. f_equal; lia.
      * constructor.
        -- exists a, ks1, tail, (Z.to_nat (g_rowspan g)), us, s1, s2. cbn [fst snd tc_tag tc_elems] in *.
           assert (SH : shown_at rows r (spans A) (g_cell g)) by exact (inv_shown _ _ _ I _ _ _ _ P0 Hg).
           assert (CELL : wc_tc c = g_cell g).
           { inversion SH as [? row' ? y' c' R' B' Y' C'|? row' ? y' c' tc' R' B' Y' C' HB']; subst; rewrite R in R'; injection R' as <-;
               destruct (begins_det _ _ _ _ _ _ B B' ltac:(split; [apply Nat.le_refl | lia]) Y') as [_ <-]; congruence. }
           rewrite CELL. destruct AT1 as (cls & EA & CF). cbn [tc_span tc_fill fst snd] in EA, CF.
           assert (NCLS : forall n, n <> utf8 "class" -> find (fun p : str * str => seqb (fst p) n) cls = None).
           { intros n NN. unfold class_for in CF. destruct (match cell_fill (g_cell g) with Some f => fill_css f | None => [] end); [subst; reflexivity|].
             destruct CF as (nm & -> & _). cbn [find fst]. destruct (seqb_spec (utf8 "class") n); [congruence | reflexivity]. }
           split; [reflexivity|]. split; [exact BT|].
           assert (SPC : forall n, str_of_Z (Z.of_nat n) = str_of_N (N.of_nat n)) by (intros [|n]; reflexivity).
           split.
           { unfold attr, span_written. cbn [fst e_attrs]. rewrite EA, CS, SPC.
             destruct (Nat.ltb_spec 1 (wc_span c)), (Z.ltb_spec 1 (Z.of_nat (wc_span c))); try lia; [reflexivity|].
             destruct (1 <? g_rowspan g)%Z; cbn [app find fst]; [change (seqb (utf8 "rowspan") a_colspan) with false; cbv iota|];
               (match goal with |- context [find ?f cls] => assert (find f cls = None) as -> by (apply NCLS; discriminate) end; reflexivity). }
           split; [exact (element_height _ _ _ P0 Hg NC GL)|]. split.
           { destruct (inv_ok _ _ _ I _ _ Hg) as [O1 _]. assert (RS : g_rowspan g = Z.of_nat (Z.to_nat (g_rowspan g))) by (unfold g_rowspan; lia).
             unfold attr, span_written. cbn [fst e_attrs]. rewrite EA. set (n := Z.to_nat (g_rowspan g)) in *. rewrite RS, SPC.
             destruct (1 <? g_colspan g)%Z; cbn [app find fst]; [change (seqb (utf8 "colspan") a_rowspan) with false; cbv iota|];
               (destruct (Nat.ltb_spec 1 n), (Z.ltb_spec 1 (Z.of_nat n)); try lia; [reflexivity|]; cbn [app];
                match goal with |- context [find ?f cls] => assert (find f cls = None) as -> by (apply NCLS; discriminate) end; reflexivity). }
           split; [exact PA|]. exact US.
        -- apply NX. replace (Z.of_nat (spans A + wc_span c)) with (Z.of_nat (spans A) + 1 + Z.of_nat (List.length t1))%Z by (cbn [List.length] in L1'; lia).
           apply (cells_skip (Z.of_nat r) t1 (Z.of_nat (spans A) + 1)%Z t2 rest); [|exact S']. intros k t' N. rewrite (ORI (Datatypes.S k) _ N). intros [= E _]. lia.
Qed.
End Row.
End Show.

(** ** All rows *)

Lemma rows_nth tr cr : forall rows y ks, rows_show tr cr y rows ks -> List.length ks = List.length rows
  /\ forall k row, nth_error rows k = Some row -> exists x cs tail, nth_error ks k = Some (Elem (utf8 "tr") [] x cs, tail)
       /\ breaks x /\ breaks tail /\ cells_show tr cr (y + Z.of_nat k)%Z 0 row cs.
Proof.
  induction rows as [|row rows IH]; intros y ks H; inversion H as [|? ? ? x cs tail rest BX BT C RS]; subst.
  - split; [reflexivity|]. intros [|k]; discriminate.
  - destruct (IH _ _ RS) as [L N]. split; [cbn; congruence|]. intros [|k] rw E; cbn [nth_error] in *.
    + injection E as <-. exists x, cs, tail. replace (y + Z.of_nat 0)%Z with y by lia. auto.
    + replace (y + Z.of_nat (S k))%Z with (y + 1 + Z.of_nat k)%Z by lia. exact (N k rw E).
Qed.

Theorem table_cells pa tbl rows s u s' tr cr e : layout tbl rows -> aligned rows ->
  parse_table pa tbl s = DOk (Some u, s') -> shows tr cr u e ->
  e_tag e = utf8 "table" /\ List.length (e_kids e) = List.length rows
  /\ forall r row, nth_error rows r = Some row -> exists x ks tail, nth_error (e_kids e) r = Some (Elem (utf8 "tr") [] x ks, tail)
       /\ breaks x /\ breaks tail /\ Forall2 (cell_shown tr cr pa rows r) (own_cells row) ks.
Proof.
  intros LY AL PT SH. destruct (grid_aligned tbl rows LY AL) as (h & m & G & N & I & AT).
  pose proof (layout_pos _ _ LY) as POS. destruct (accepted_facts rows h m POS N) as (F & T & POSI & V).
  destruct (parse_table_cells pa tbl s u s' PT) as (m' & trows & G' & -> & FC). rewrite G in G'. injection G' as <-.
  inversion SH as [ | | ? ? ? x ks BX RS]; subst. destruct (rows_nth _ _ _ _ _ RS) as [L NK].
  assert (LR : List.length trows = List.length rows).
  { rewrite <- (Forall2_length _ _ _ FC). unfold matrix_of. rewrite map_length. symmetry. exact (Forall2_length _ _ _ F). }
  split; [reflexivity|]. cbn [e_kids]. split; [etransitivity; [exact L | exact LR]|]. intros r row R.
  assert (exists trow, nth_error trows r = Some trow) as (trow & TR).
  { destruct (nth_error trows r) eqn:X; [eauto|]. apply nth_error_None in X. assert (r < List.length rows) by (apply nth_error_Some; congruence). lia. }
  destruct (NK r trow TR) as (x1 & cs & tail & NE & B1 & B2 & CS). exists x1, cs, tail. split; [exact NE|]. split; [exact B1|]. split; [exact B2|].
  assert (exists grow, nth_error (matrix_of h m) r = Some grow /\ Forall2 (cell_of pa) grow trow) as (grow & GR & FG).
  { clear - FC TR. revert r TR. induction FC as [|g t gs ts H _ IH]; intros [|r] TR; try discriminate; [injection TR as <-; exists g; split; [reflexivity | exact H] | exact (IH r TR)]. }
  unfold own_cells. change 0%nat with (spans []) at 1. rewrite Z.add_0_l in CS.
  apply (cells_own tr cr pa rows h m r I POS T POSI row R row [] grow trow cs); [reflexivity | | | exact FG | exact CS].
  - unfold matrix_of in GR. rewrite nth_error_map in GR. destruct (nth_error m r) as [ids|] eqn:M; [|discriminate]. cbn [option_map] in GR. injection GR as <-.
    assert (LI : List.length ids = spans row).
    { clear - F R M. revert r R M. induction F as [|a b rs ms H _ IH]; intros [|r] R M; try discriminate; [cbn in R, M; injection R as <-; injection M as <-; exact H | exact (IH r R M)]. }
    rewrite <- LI. assert (V' : forall i, In i ids -> nth_error h i <> None) by (intros i Hi; apply V, in_concat; exists ids; split; [eapply nth_error_In; exact M | exact Hi]).
    clear - V'. induction ids as [|i ids IH]; [reflexivity|]. cbn [flat_map]. destruct (nth_error h i) eqn:E; [|destruct (V' i (or_introl eq_refl) E)].
    cbn. f_equal. apply IH. intros j J. apply V'. right. exact J.
  - intros k [i g] K. cbn [fst snd]. apply AT. unfold at_pos. rewrite GR. exact K.
Qed.
