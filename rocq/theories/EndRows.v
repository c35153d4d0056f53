(** Proofs for C78: the rows the JSON stage iterates over. *)
From Coq Require Import NArith ZArith List Bool String Lia.
From Verif Require Import PyStr PyStrFacts Xml Docx Render Lint RowIter Helpers Extract Document
  SpecText SpecFields SpecLabel SpecHeader SpecRows SpecTable SpecDoc SpecRun SpecReads SpecFmt SpecDocx SpecGrid SpecHtml SpecTables SpecEnd
  MFacts LabelProofs HeaderProofs RowProofs TableProofs GridProofs HtmlProofs TableHtml RestoreProofs
  Prop_Rows Prop_Label Prop_Docx Prop_Grid EndProofs.
Import ListNotations.
Local Open Scope string_scope.
Local Open Scope list_scope.

(** ** Rows consist of td cells *)
Definition td_kid (k : kid) : Prop := e_tag (fst k) = t_td.
Definition entry_td (p : Z * kid * Z) : Prop := td_kid (snd (fst p)).

Lemma flush_tds pend : forall col ys p c, flush pend col = Some (ys, p, c) -> Forall (fun q => td_kid (snd q)) pend ->
  Forall td_kid ys /\ Forall (fun q => td_kid (snd q)) p.
Proof.
  induction pend as [|[off k] r IH]; intros col ys p c H F; cbn [flush] in H; [injection H as <- <- <-; split; constructor|].
  destruct (off =? col)%Z; [|injection H as <- <- <-; split; [constructor | exact F]].
  destruct (span_attr a_colspan (fst k)); [|discriminate]. destruct (flush r _) as [[[ys' p'] c']|] eqn:E; [|discriminate]. injection H as <- <- <-.
  inversion F as [|? ? K F']; subst. destruct (IH _ _ _ _ E F') as [A B]. split; [constructor; assumption | exact B].
Qed.
Lemma merge_tds tds : forall pend col ks, merge_cells tds pend col = Some ks -> Forall td_kid tds -> Forall (fun q => td_kid (snd q)) pend -> Forall td_kid ks.
Proof.
  induction tds as [|td rest IH]; intros pend col ks H F G; cbn [merge_cells] in H.
  - destruct pend as [|[off k] r]; [injection H as <-; constructor|]. injection H as <-. inversion G as [|? ? K G']; subst.
    apply Forall_app. split; [destruct (off =? col)%Z; repeat constructor; exact K | apply Forall_map; exact G'].
  - destruct (flush pend col) as [[[ys p] c]|] eqn:E; [|discriminate]. destruct (span_attr a_colspan (fst td)); [|discriminate].
    destruct (merge_cells rest p _) as [zs|] eqn:M; [|discriminate]. injection H as <-. destruct (flush_tds _ _ _ _ _ E G) as [A B].
    inversion F as [|? ? K F']; subst. apply Forall_app. split; [exact A|]. constructor; [exact K|]. exact (IH _ _ _ M F' B).
Qed.
Lemma insert_tds l n k c : Forall entry_td l -> td_kid k -> Forall entry_td (alst_insert l n k c).
Proof.
  intros F K. induction F as [|[[m k'] c'] r H F IH]; cbn [alst_insert]; [repeat constructor; exact K|]. destruct (n <? m)%Z; repeat (constructor; try assumption).
Qed.
Lemma store_tds tds : forall col l l', store_spans tds col l = Some l' -> Forall td_kid tds -> Forall entry_td l -> Forall entry_td l'.
Proof.
  induction tds as [|td r IH]; intros col l l' H F G; cbn [store_spans] in H; [injection H as <-; exact G|].
  destruct (span_attr a_rowspan (fst td)) as [rs|]; [|discriminate]. destruct (span_attr a_colspan (fst td)); [|discriminate]. inversion F as [|? ? K F']; subst.
  eapply IH; [exact H | exact F'|]. destruct (1 <? rs)%Z; [apply insert_tds; assumption | exact G].
Qed.
Lemma decr_tds l : Forall entry_td l -> Forall entry_td (alst_count_decr l).
Proof.
  intros F. unfold alst_count_decr. induction F as [|[[n k] c] r H F IH]; cbn [flat_map]; [constructor|]. apply Forall_app. split; [|exact IH].
  destruct (1 <? c)%Z; repeat constructor; exact H.
Qed.
Lemma kids_td e : Forall td_kid (kids_of t_td e).
Proof. unfold kids_of. apply Forall_forall. intros k I. apply filter_In in I as [_ T]. apply seqb_eq in T. exact T. Qed.
Lemma tds_no_th ks x t a : Forall td_kid ks -> contains_th (Elem t a x ks) = false.
Proof.
  intros F. apply contains_th_children. unfold children, kids_of. cbn [e_kids]. induction F as [|k ks K F IH]; [reflexivity|]. cbn [filter].
  rewrite K. exact IH.
Qed.
Lemma tds_all e : Forall td_kid (e_kids e) -> kids_of t_td e = e_kids e.
Proof. unfold kids_of. intros F. induction F as [|k ks K F IH]; [reflexivity|]. cbn [filter]. rewrite K, seqb_refl. f_equal. exact IH. Qed.

Definition clean_row (row : elem) : Prop := contains_th row = false -> blank (e_text row) /\ Forall td_kid (e_kids row).
Lemma loop_clean rows : forall l, Forall entry_td l -> Forall (fun y => clean_row (y_row y)) rows ->
  forall i y', nth_error (fst (row_loop rows l)) i = Some y' ->
    exists y, nth_error rows i = Some y /\ contains_th (y_row y') = contains_th (y_row y) /\ clean_row (y_row y').
Proof.
  induction rows as [|y rest IH]; intros l F G i y' N; [destruct i; discriminate|]. inversion G as [|? ? C G']; subst. cbn [row_loop] in N.
  destruct (contains_th (y_row y)) eqn:T.
  - specialize (IH l F G'). destruct (row_loop rest l) as [ys e]. cbn [fst] in *. destruct i as [|i]; cbn [nth_error] in N.
    + injection N as <-. exists y. split; [reflexivity|]. split; [reflexivity|]. exact C.
    + destruct (IH i y' N) as (z & A & B). exists z. split; [exact A | exact B].
  - set (reb := match l with [] => Some y | _ :: _ => _ end) in N.
    assert (R : forall z, reb = Some z -> contains_th (y_row z) = false /\ clean_row (y_row z)).
    { intros z. unfold reb. destruct l as [|p l'].
      - intros [= <-]. split; [exact T | exact C].
      - destruct (sorted_row_children (y_row y) (p :: l')) as [ks|] eqn:S; [|discriminate]. intros [= <-]. cbn [y_row].
        assert (K : Forall td_kid ks).
        { apply (merge_tds _ _ _ _ S); [apply kids_td|]. apply Forall_map. eapply Forall_impl; [|exact F]. intros [[a b] c] H. exact H. }
        split; [apply tds_no_th; exact K|]. intros _. split; [constructor | exact K]. }
    destruct reb as [z|]; [|destruct i; discriminate]. destruct (R z eq_refl) as [R1 R2].
    destruct (store_spans (kids_of t_td (y_row z)) 0 l) as [l'|] eqn:S; [|destruct i; discriminate].
    specialize (IH (alst_count_decr l') (decr_tds _ (store_tds _ _ _ _ S (kids_td _) F)) G'). destruct (row_loop rest _) as [ys e]. cbn [fst] in *.
    destruct i as [|i]; cbn [nth_error] in N.
    + injection N as <-. exists y. split; [reflexivity|]. split; [congruence | exact R2].
    + destruct (IH i y' N) as (w & A & B). exists w. split; [exact A | exact B].
Qed.

(** ** The rows below the title *)
Section Figure.
Variables (tr cr : list (str * list (str * str))) (d : docx) (fuel : nat).
Variables (tbl : welem) (rows : list (list wcell)) (s : seen) (u : hunit) (s' : seen) (e : elem).
Hypothesis RG : regular tbl rows.
Hypothesis PT : parse_table (parse_any d fuel) tbl s = DOk (Some u, s').
Hypothesis SW : shows tr cr u e.
Notation pa := (parse_any d fuel).
Notation cshown := (cell_shown tr cr pa rows).

Lemma fig_kid r row : nth_error rows r = Some row -> exists x ks tail, nth_error (e_kids e) r = Some (Elem t_tr [] x ks, tail)
  /\ blank x /\ blank tail /\ Forall2 (cshown r) (own_cells row) ks.
Proof.
  destruct RG as (LY & AL & _). intros R. destruct (TableHtml.table_cells _ _ _ _ _ _ _ _ _ LY AL PT SW) as (_ & _ & N). destruct (N r row R) as (x & ks & tail & Q1 & Q2 & Q3 & Q4). exists x, ks, tail. split; [exact Q1|]. split; [exact (breaks_blank _ Q2)|]. split; [exact (breaks_blank _ Q3) | exact Q4].
Qed.
Lemma fig_len : List.length (e_kids e) = List.length rows.
Proof. destruct RG as (LY & AL & _). exact (proj1 (proj2 (TableHtml.table_cells _ _ _ _ _ _ _ _ _ LY AL PT SW))). Qed.
Lemma fig_tag : e_tag e = t_table.
Proof. destruct RG as (LY & AL & _). exact (proj1 (TableHtml.table_cells _ _ _ _ _ _ _ _ _ LY AL PT SW)). Qed.

Lemma fig_out : exists ys, row_iter e = (ys, None) /\ List.length ys = List.length rows
  /\ forall r row k y, nth_error rows r = Some row -> nth_error (e_kids e) r = Some k -> nth_error ys r = Some y ->
       (header_row row -> y_row y = fst k)
       /\ (~ header_row row -> Forall2 (cell_restored tr cr pa rows e r) (placed 0 row) (kids_of t_td (y_row y))).
Proof.
  destruct RG as (LY & AL & SEP & NE & W & WD & SR & SC). destruct (restored _ _ _ _ _ _ _ _ _ W LY AL PT SW NE WD SEP SR SC) as (out & RO & LO & N).
  unfold rows_of in RO. destruct (row_iter e) as [ys o]. injection RO as <- ->. exists ys. split; [reflexivity|]. rewrite map_length in LO. split; [exact LO|].
  intros r row k y R K Y. destruct (N r row k (y_row y) R K) as [A B]; [rewrite nth_error_map, Y; reflexivity|]. split; [exact A | intros H; apply B, H].
Qed.

Lemma fig_th r row x ks : Forall2 (cshown r) (own_cells row) ks -> (contains_th (Elem t_tr [] x ks) = true <-> header_row row).
Proof.
  intros F. rewrite <- hdr_iff. pose proof (nh_row _ _ _ _ _ _ x _ F) as N. unfold data in N. rewrite Prop_Rows.no_header_th, N, negb_involutive. reflexivity.
Qed.
Lemma fig_clean r row x ks : blank x -> Forall2 (cshown r) (own_cells row) ks -> clean_row (Elem t_tr [] x ks).
Proof.
  intros BX F NT. split; [exact BX|]. cbn [e_kids]. assert (DT : data row = true).
  { rewrite <- (nh_row _ _ _ _ _ _ x _ F). rewrite Prop_Rows.no_header_th in NT. destruct (no_header _); [reflexivity | discriminate]. }
  pose proof (td_row _ _ _ _ _ _ x _ F DT) as T. change ks with (e_kids (Elem t_tr [] x ks)). rewrite <- T. apply kids_td.
Qed.

(** The rows of the table without its title row. *)
Lemma select_all ks : Forall (fun k : kid => e_tag (fst k) = t_tr /\ has_cell (fst k) = true) ks -> List.length (select_rows ks) = List.length ks
  /\ forall i k, nth_error ks i = Some k -> exists sib, nth_error (select_rows ks) i = Some (mkY (fst k) sib).
Proof.
  induction 1 as [|k ks (T & H) F (L & N)]; [split; [reflexivity | intros [|]; discriminate]|]. cbn [select_rows].
  assert (E : has_cell (fst k) = (match children t_td (fst k) with [] => false | _ => true end || contains_th (fst k))).
  { unfold has_cell, contains_th. destruct (children t_td (fst k)); [|reflexivity]. reflexivity. }
  rewrite T, seqb_refl, <- E, H. cbn [andb]. split; [cbn [List.length]; rewrite L; reflexivity|]. intros [|i] k' K; cbn [nth_error] in *; [injection K as <-; eauto | exact (N i k' K)].
Qed.
Lemma fig_cells : Forall (fun k : kid => e_tag (fst k) = t_tr /\ has_cell (fst k) = true) (e_kids e).
Proof.
  apply Forall_forall. intros k I. apply In_nth_error in I as (r & K). destruct (nth_error rows r) as [row|] eqn:R.
  - destruct (fig_kid r row R) as (x & ks & tail & K' & _ & _ & F). pose proof (eq_trans (eq_sym K) K') as KK; injection KK as ->. split; [reflexivity|]. cbn [fst].
    destruct RG as (_ & _ & _ & NE & _). exact (cell_row _ _ _ _ NE _ _ x _ F (nth_error_In _ _ R)).
  - apply nth_error_None in R. rewrite <- fig_len in R. apply nth_error_None in R. discriminate (eq_trans (eq_sym K) R).
Qed.
Lemma fig_loop_clean i y : nth_error (select_rows (e_kids e)) i = Some y -> clean_row (y_row y).
Proof.
  intros N. destruct (select_all _ fig_cells) as [L S]. destruct (nth_error (e_kids e) i) as [k|] eqn:K.
  - destruct (S i k K) as (sib & E). rewrite E in N. injection N as <-. cbn [y_row]. destruct (nth_error rows i) as [row|] eqn:R.
    + destruct (fig_kid i row R) as (x & ks & tail & K' & BX & _ & F). pose proof (eq_trans (eq_sym K) K') as KK; injection KK as ->. exact (fig_clean _ _ _ _ BX F).
    + apply nth_error_None in R. rewrite <- fig_len in R. apply nth_error_None in R. discriminate (eq_trans (eq_sym K) R).
  - exfalso. apply nth_error_None in K. assert (X : nth_error (select_rows (e_kids e)) i <> None) by congruence. apply nth_error_Some in X. apply (Nat.lt_irrefl i). eapply Nat.lt_le_trans; [exact X|]. rewrite L. exact K.
Qed.

Variables (title : str) (hrow : list wcell).
Hypothesis TL : lone rows 0 title.
Hypothesis H1 : nth_error rows 1 = Some hrow.
Hypothesis HH : header_row hrow.

Lemma title_cell : exists c, nth_error rows 0 = Some [c] /\ wc_cont c = false /\ cell_says (wc_tc c) title /\ own_cells [c] = [(0%nat, c)].
Proof.
  destruct TL as ((c & R) & row & y & c' & tc & R' & P & SA & CS). rewrite R in R'. injection R' as <-. cbn in P. injection P as <- <-. exists c. split; [exact R|].
  assert (NC : wc_cont c = false).
  { destruct (wc_cont c) eqn:C; [|reflexivity]. destruct RG as (_ & AL & _). destruct (AL 0%nat [c] 0%nat c R) as (r' & _ & _ & X & _); [exists [], []; split; reflexivity | exact C | discriminate X]. }
  split; [exact NC|]. split.
  - assert (SO : shown_at rows 0 0 (wc_tc c)).
    { eapply sh_own; [exact R | exists [], []; split; reflexivity | | exact NC]. destruct RG as (LY & _). pose proof (layout_pos _ _ LY) as POS.
      rewrite Forall_forall in POS. specialize (POS [c] (nth_error_In _ _ R)). apply Forall_inv in POS. cbv beta in POS. split; [apply Nat.le_refl|]. exact POS. }
    rewrite (C41_shown_unique _ _ _ _ _ SO SA). exact CS.
  - unfold own_cells. cbn. rewrite NC. reflexivity.
Qed.

Lemma fig_title : exists tr0 tl0 rest ys, e_kids e = (tr0, tl0) :: rest /\ e_tag tr0 = t_tr /\ to_text tr0 = title /\ unwrapped e e
  /\ row_iter (Elem (e_tag e) (e_attrs e) (e_text e) rest) = (ys, None) /\ List.length ys = pred (List.length rows)
  /\ forall r row, nth_error rows (S r) = Some row -> exists y, nth_error ys r = Some y
       /\ (header_row row -> contains_th (y_row y) = true /\ exists x ks tail, y_row y = Elem t_tr [] x ks /\ nth_error rest r = Some (y_row y, tail)
             /\ blank x /\ Forall2 (cshown (S r)) (own_cells row) ks)
       /\ (~ header_row row -> contains_th (y_row y) = false /\ blank (e_text (y_row y)) /\ e_kids (y_row y) = kids_of t_td (y_row y)
             /\ Forall2 (cell_restored tr cr pa rows e (S r)) (placed 0 row) (kids_of t_td (y_row y))).
Proof.
  destruct title_cell as (c & R0 & NC & CS & OC). destruct (fig_kid 0 _ R0) as (x & ks & tl0 & K0 & BX & _ & F). rewrite OC in F.
  inversion F as [|? k ? ks0 CK F']; subst. inversion F'; subst. clear F'.
  destruct (e_kids e) as [|q rest] eqn:EK; [discriminate|]. cbn [nth_error] in K0. injection K0 as ->.
  destruct (cell_seen _ _ _ _ _ _ _ _ _ CK CS) as [SC BT].
  destruct fig_out as (ys & RI & LY & N).
  assert (FC := fig_cells). rewrite EK in FC. inversion FC as [|? ? (_ & HC) FC']; subst. cbn [fst] in HC.
  (* the title row is dropped *)
  assert (TAIL : exists y0 ys', ys = y0 :: ys' /\ row_iter (Elem (e_tag e) (e_attrs e) (e_text e) rest) = (ys', None)).
  { unfold row_iter in RI |- *. cbn [e_kids]. rewrite EK in RI. cbn [select_rows fst] in RI.
    assert (E : has_cell (Elem t_tr [] x [k]) = (match children t_td (Elem t_tr [] x [k]) with [] => false | _ => true end || contains_th (Elem t_tr [] x [k]))).
    { unfold has_cell, contains_th. destruct (children t_td _); [|reflexivity]. reflexivity. }
    rewrite <- E, HC in RI. cbn [e_tag] in RI. rewrite seqb_refl in RI. cbn [andb row_loop y_row] in RI. destruct (contains_th (Elem t_tr [] x [k])) eqn:CT.
    - destruct (row_loop (select_rows rest) []) as [zs o]. injection RI as <- ->. eauto.
    - destruct (store_spans (kids_of t_td (Elem t_tr [] x [k])) 0 []) as [l'|] eqn:SS; [|discriminate].
      assert (l' = []) as ->.
      { assert (KT : kids_of t_td (Elem t_tr [] x [k]) = [k]).
        { pose proof (fig_clean 0 [c] x [k] BX) as CL. rewrite OC in CL. destruct (CL F CT) as [_ TD]. apply tds_all. exact TD. }
        rewrite KT in SS. cbn [store_spans] in SS. destruct CK as (a & ks & tail & n & us & s1 & s2 & -> & _ & _ & HT & RS & _). cbn [fst snd] in *.
        assert (n = 1%nat) as ->.
        { destruct HT as (L & HC' & _). destruct (Nat.eq_dec n 1) as [->|NE]; [reflexivity|]. exfalso. specialize (HC' 1%nat ltac:(lia)). cbn [Nat.add] in HC'.
          destruct RG as (_ & _ & SEP & _). destruct (SEP 0%nat 0%nat HC') as [_ X]. exact (X hrow H1 HH). }
        unfold span_attr at 1 in SS. rewrite RS in SS. change (span_written 1) with (@None str) in SS. change (1 <? 1)%Z with false in SS. cbv iota zeta in SS.
        destruct (span_attr a_colspan _); [|discriminate]. injection SS as <-. reflexivity. }
      change (alst_count_decr []) with (@nil (Z * kid * Z)) in RI. destruct (row_loop (select_rows rest) []) as [zs o]. injection RI as <- ->. eauto. }
  destruct TAIL as (y0 & ys' & -> & RI'). exists (Elem t_tr [] x [k]), tl0, rest, ys'. split; [reflexivity|]. split; [reflexivity|]. split.
  { unfold to_text. rewrite itertext_elem. cbn [flat_map]. rewrite app_nil_r. destruct SC as (p & tl & tag & a & _ & _ & _ & SC). apply SC; [exact BX | exact BT]. }
  split.
  { right. split; [reflexivity|]. intros v (tr1 & trs & td & tds & tl & ks & A & B & C & D). unfold children, kids_of in A. rewrite EK in A. cbn [filter fst e_tag] in A. rewrite seqb_refl in A. cbn [map fst] in A.
    injection A as <- _. unfold children, kids_of in B. cbn [e_kids filter] in B. destruct (seqb (e_tag (fst k)) t_td); [|discriminate]. cbn [map] in B. injection B as <- _.
    destruct SC as (p & tl' & tag & a & E & TP & _). rewrite E in C. cbn [e_kids] in C. injection C as <- _ _. rewrite TP in D. discriminate. }
  split; [exact RI'|]. cbn [List.length] in LY. split; [lia|]. intros r row R. destruct (fig_kid (S r) row R) as (x1 & ks1 & tail & K & BX1 & _ & F1). rewrite EK in K. cbn [nth_error] in K.
  assert (exists y, nth_error ys' r = Some y) as (y & Y).
  { destruct (nth_error ys' r) as [y|] eqn:Y; [eauto|]. apply nth_error_None in Y. assert (nth_error rows (S r) <> None) as X by congruence. apply nth_error_Some in X. lia. }
  rewrite EK in N. exists y. split; [exact Y|]. destruct (N (S r) row (Elem t_tr [] x1 ks1, tail) y R K Y) as [NA NB]. cbn [fst] in NA.
  assert (CL : exists z, nth_error (select_rows (e_kids e)) (S r) = Some z /\ contains_th (y_row y) = contains_th (y_row z) /\ clean_row (y_row y)).
  { apply (loop_clean (select_rows (e_kids e)) []); [constructor | |].
    - apply Forall_forall. intros z I. apply In_nth_error in I as (i & I). exact (fig_loop_clean i z I).
    - change (row_loop (select_rows (e_kids e)) []) with (row_iter e). rewrite RI. exact Y. }
  destruct CL as (z & Z1 & Z2 & Z3). destruct (select_all _ fig_cells) as [_ SA]. rewrite EK in SA. destruct (SA (S r) _ K) as (sib & Z1'). rewrite EK in Z1. rewrite Z1' in Z1. injection Z1 as <-. cbn [y_row fst] in Z2.
  split; intros HR.
  - pose proof (proj2 (fig_th (S r) row x1 ks1 F1) HR) as T. split; [congruence|]. rewrite (NA HR). exists x1, ks1, tail. auto.
  - assert (T : contains_th (Elem t_tr [] x1 ks1) = false).
    { destruct (contains_th (Elem t_tr [] x1 ks1)) eqn:T; [|reflexivity]. apply (fig_th (S r) row x1 ks1 F1) in T. contradiction. }
    rewrite T in Z2. destruct (Z3 Z2) as [B D]. split; [exact Z2|]. split; [exact B|]. split; [symmetry; apply tds_all; exact D|]. apply NB, HR.
Qed.
End Figure.
