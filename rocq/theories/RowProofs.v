(** Proofs about row iteration. *)
From Coq Require Import NArith ZArith List Bool Lia ZifyBool Sorting.Sorted.
From Verif Require Import PyStr PyStrFacts Xml Lint RowIter SpecRows.
Import ListNotations.
Local Open Scope Z_scope.

(** ** Attributes *)
Lemma find_filter_other {A} (p q : A -> bool) l :
  (forall a, q a = true -> p a = true) -> find q (filter p l) = find q l.
Proof.
  intros H. induction l as [|a l IH]; [reflexivity|]. cbn. destruct (p a) eqn:P; cbn.
  - destruct (q a); [reflexivity | exact IH].
  - destruct (q a) eqn:Q; [rewrite (H a Q) in P; discriminate | exact IH].
Qed.
Lemma colspan_del e : span_attr a_colspan (del_attr a_rowspan e) = span_attr a_colspan e.
Proof.
  unfold span_attr, attr, del_attr. cbn [e_attrs]. rewrite find_filter_other; [reflexivity|].
  intros [a b] H. cbn in *. apply seqb_eq in H. subst. reflexivity.
Qed.
Lemma rowspan_del e : span_attr a_rowspan (del_attr a_rowspan e) = Some 1.
Proof.
  unfold span_attr, attr, del_attr. cbn [e_attrs].
  replace (find _ (filter _ (e_attrs e))) with (@None (str * str)); [reflexivity|].
  symmetry. induction (e_attrs e) as [|[a b] l IH]; [reflexivity|]. cbn.
  destruct (seqb a a_rowspan) eqn:E; cbn; [exact IH | rewrite E; exact IH].
Qed.

(** ** Abutting cells *)
Fixpoint abut (c : Z) (l : list cell) : Prop :=
  match l with [] => True | p :: r => c_col p = c /\ abut (c + c_w p) r end.

Lemma abut_ge l : forall c p, (forall q, In q l -> 1 <= c_w q) -> abut c l -> In p l -> c <= c_col p.
Proof.
  induction l as [|q l IH]; intros c p W A I; [destruct I|]. cbn in A. destruct A as [A1 A2].
  destruct I as [<- | I]; [lia|]. assert (1 <= c_w q) by (apply W; left; reflexivity).
  specialize (IH (c + c_w q) p (fun x Hx => W x (or_intror Hx)) A2 I). lia.
Qed.

Definition above_entry (p : cell) : Z * kid := (c_col p, (del_attr a_rowspan (fst (c_td p)), snd (c_td p))).

Lemma flush_other pend c : (forall x r, pend = x :: r -> fst x <> c) -> flush pend c = Some ([], pend, c).
Proof.
  intros H. destruct pend as [|[off k] r]; [reflexivity|]. cbn.
  specialize (H (off, k) r eq_refl). cbn in H. replace (off =? c) with false by lia. reflexivity.
Qed.

Lemma merge_flush td rest off k pend w :
  span_attr a_colspan (fst k) = Some w ->
  merge_cells (td :: rest) ((off, k) :: pend) off
  = option_map (cons k) (merge_cells (td :: rest) pend (off + w)).
Proof.
  intros H. cbn [merge_cells flush]. rewrite Z.eqb_refl, H.
  destruct (flush pend (off + w)) as [[[ys p] c]|]; [|reflexivity].
  destruct (span_attr a_colspan (fst td)) as [w'|]; [|reflexivity].
  destruct (merge_cells rest p (c + w')); reflexivity.
Qed.

Lemma merge_abut r l : forall c,
  (forall p, In p l -> attributes_agree p /\ 1 <= c_w p) -> abut c l ->
  merge_cells (map c_td (filter (starts_in r) l))
              (map above_entry (filter (fun p => negb (starts_in r p)) l)) c
  = Some (map (shown r) l).
Proof.
  induction l as [|p l IH]; intros c H A; [reflexivity|]. cbn in A. destruct A as [A1 A2].
  assert (H' : forall q, In q l -> attributes_agree q /\ 1 <= c_w q) by (intros; apply H; right; assumption).
  specialize (IH (c + c_w p) H' A2). destruct (H p (or_introl eq_refl)) as [[Hr Hc] Hw].
  cbn [filter map]. destruct (starts_in r p) eqn:S; cbn [negb map].
  - (* own cell *)
    cbn [merge_cells]. rewrite flush_other.
    2: { intros x s E. intros Ex. assert (In x (map above_entry (filter (fun q => negb (starts_in r q)) l))).
         { rewrite E. left. reflexivity. }
         apply in_map_iff in H0 as (q & <- & Hq). apply filter_In in Hq as [Hq _]. cbn in Ex.
         assert (c + c_w p <= c_col q) by (apply (abut_ge l); [intros; apply H'; assumption | exact A2 | exact Hq]). lia. }
    rewrite Hc, IH. unfold shown at 2. rewrite S. reflexivity.
  - (* stored cell *)
    destruct (filter (starts_in r) l) as [|q qs] eqn:F.
    + (* no own cell left *)
      cbn [map merge_cells above_entry]. rewrite A1, Z.eqb_refl. cbn [app]. f_equal. f_equal.
      * unfold shown. rewrite S. reflexivity.
      * cbn [map] in IH. rewrite map_map. clear -F. induction l as [|q l IHl]; [reflexivity|].
        cbn in F. destruct (starts_in r q) eqn:Sq; [discriminate|]. cbn. rewrite Sq. cbn. f_equal.
        -- unfold shown. rewrite Sq. reflexivity.
        -- apply IHl. exact F.
    + cbn [map]. unfold above_entry at 1. rewrite A1. cbn [map] in IH.
      rewrite (merge_flush _ _ _ _ _ (c_w p)); [|cbn; rewrite colspan_del; exact Hc].
      rewrite IH. cbn. unfold shown at 2. rewrite S. reflexivity.
Qed.

(** ** The list of stored cells *)
Definition entry (r : Z) (p : cell) : Z * kid * Z :=
  (c_col p, (del_attr a_rowspan (fst (c_td p)), snd (c_td p)), c_row p + c_h p - r).

Lemma alst_insert_mid A B n k c :
  (forall e, In e A -> fst (fst e) <= n) ->
  (forall e s, B = e :: s -> n < fst (fst e)) ->
  alst_insert (A ++ B) n k c = A ++ (n, k, c) :: B.
Proof.
  intros HA HB. induction A as [|[[m k'] c'] A IH].
  - destruct B as [|[[m k'] c'] B]; [reflexivity|]. specialize (HB _ _ eq_refl). cbn in *.
    replace (n <? m) with true by lia. reflexivity.
  - cbn [app alst_insert]. pose proof (HA _ (or_introl eq_refl)) as H. cbn in H. replace (n <? m) with false by lia.
    rewrite IH by (intros; apply HA; right; assumption). reflexivity.
Qed.

Lemma store_abut r L2 : forall L1 c,
  (forall p, In p (L1 ++ L2) -> attributes_agree p /\ 1 <= c_w p) ->
  (forall p, In p L1 -> c_col p < c) -> abut c L2 ->
  store_spans (map (shown r) L2) c
    (map (entry r) (filter (fun p => negb (starts_in r p) || (1 <? c_h p)) L1)
     ++ map (entry r) (filter (fun p => negb (starts_in r p)) L2))
  = Some (map (entry r) (filter (fun p => negb (starts_in r p) || (1 <? c_h p)) (L1 ++ L2))).
Proof.
  induction L2 as [|p L2 IH]; intros L1 c H Hlt A.
  - cbn. rewrite !app_nil_r. reflexivity.
  - cbn in A. destruct A as [A1 A2]. destruct (H p) as [[Hr Hc] Hw]; [apply in_elt|].
    assert (E : L1 ++ p :: L2 = (L1 ++ [p]) ++ L2) by (rewrite <- app_assoc; reflexivity).
    specialize (IH (L1 ++ [p]) (c + c_w p)). rewrite <- E in IH. specialize (IH H).
    assert (Hlt' : forall q, In q (L1 ++ [p]) -> c_col q < c + c_w p).
    { intros q Hq. apply in_app_or in Hq as [Hq | [<- | []]]; [specialize (Hlt q Hq); lia | lia]. }
    specialize (IH Hlt' A2). rewrite filter_app, map_app in IH. cbn [filter] in IH.
    cbn [map store_spans filter]. assert (ES : shown r p = if starts_in r p then c_td p else (del_attr a_rowspan (fst (c_td p)), snd (c_td p))) by reflexivity.
    rewrite ES. destruct (starts_in r p) eqn:S; cbn [negb orb] in *.
    + rewrite Hr, Hc. destruct (1 <? c_h p) eqn:Hh.
      * replace (alst_insert (map (entry r) (filter (fun p0 => negb (starts_in r p0) || (1 <? c_h p0)) L1)
            ++ map (entry r) (filter (fun p0 => negb (starts_in r p0)) L2)) c
            (del_attr a_rowspan (fst (c_td p)), snd (c_td p)) (c_h p))
          with (map (entry r) (filter (fun p0 => negb (starts_in r p0) || (1 <? c_h p0)) L1) ++ entry r p ::
                map (entry r) (filter (fun p0 => negb (starts_in r p0)) L2)).
        -- rewrite <- IH. cbn [map]. rewrite <- app_assoc. reflexivity.
        -- symmetry. rewrite alst_insert_mid.
           ++ replace (entry r p) with (c, (del_attr a_rowspan (fst (c_td p)), snd (c_td p)), c_h p); [reflexivity|].
              unfold entry, starts_in in *. rewrite A1. f_equal. lia.
           ++ intros e He. apply in_map_iff in He as (q & <- & Hq). apply filter_In in Hq as [Hq _].
              specialize (Hlt q Hq). cbn. lia.
           ++ intros e s Ee.
              assert (In e (map (entry r) (filter (fun p0 => negb (starts_in r p0)) L2))) by (rewrite Ee; left; reflexivity).
              apply in_map_iff in H0 as (q & <- & Hq). apply filter_In in Hq as [Hq _]. cbn.
              assert (c + c_w p <= c_col q).
              { apply (abut_ge L2); [intros x Hx; apply H; apply in_or_app; right; right; exact Hx | exact A2 | exact Hq]. }
              lia.
      * cbn [map] in IH. rewrite app_nil_r in IH. exact IH.
    + cbn [fst]. rewrite rowspan_del, colspan_del, Hc. cbn [Z.ltb].
      change (1 <? 1) with false. cbv iota.
      rewrite <- IH. cbn [map]. rewrite <- app_assoc. reflexivity.
Qed.

Lemma decr_entries r L :
  alst_count_decr (map (entry r) L)
  = map (entry (r + 1)) (filter (fun p => 1 <? c_row p + c_h p - r) L).
Proof.
  induction L as [|p L IH]; [reflexivity|]. cbn [map alst_count_decr flat_map]. fold (alst_count_decr (map (entry r) L)).
  rewrite IH. unfold entry at 1. cbn [filter]. destruct (1 <? c_row p + c_h p - r); [|reflexivity].
  cbn [app map]. f_equal. unfold entry. f_equal. lia.
Qed.

Lemma filter_filter {A} (p q : A -> bool) l : filter p (filter q l) = filter (fun x => q x && p x) l.
Proof. induction l as [|a l IH]; [reflexivity|]. cbn. destruct (q a); cbn; [destruct (p a)|]; rewrite IH; reflexivity. Qed.
Lemma filter_ext_in' {A} (p q : A -> bool) l : (forall a, In a l -> p a = q a) -> filter p l = filter q l.
Proof.
  induction l as [|a l IH]; intros H; [reflexivity|]. cbn. rewrite (H a) by (left; reflexivity).
  rewrite IH by (intros; apply H; right; assumption). reflexivity.
Qed.

(** Cells that began above row [r] and reach it. *)
Definition open_above (r : Z) (p : cell) : bool := (c_row p <? r) && (r <? c_row p + c_h p).

Definition pend_of (l : alst) : list (Z * kid) := map (fun '(n, k, _) => (n, k)) l.

(** No td of a rebuilt row is anything but a td. *)
Lemma kids_of_tds tag attrs text ks :
  forallb (fun k => seqb (e_tag (fst k)) t_td) ks = true -> kids_of t_td (Elem tag attrs text ks) = ks.
Proof.
  unfold kids_of. cbn [e_kids]. induction ks as [|k ks IH]; intros H; [reflexivity|]. cbn in *.
  apply andb_true_iff in H as [H1 H2]. rewrite H1, IH by exact H2. reflexivity.
Qed.

(** ** Rows of a tiling, one at a time *)
Section Tiling.
Variable cs : list cell.
Hypothesis Hcell : forall p, In p cs -> attributes_agree p /\ 1 <= c_w p /\ 1 <= c_h p /\ e_tag (fst (c_td p)) = t_td.

Lemma row_loop_tiling rows : forall r,
  (forall i y, nth_error rows i = Some y ->
     contains_th (y_row y) = false
     /\ kids_of t_td (y_row y) = map c_td (filter (starts_in (r + Z.of_nat i)) cs)
     /\ abut 0 (filter (covers_row (r + Z.of_nat i)) cs)) ->
  exists ys, row_loop rows (map (entry r) (filter (open_above r) cs)) = (ys, None)
    /\ List.length ys = List.length rows
    /\ forall i y y', nth_error rows i = Some y -> nth_error ys i = Some y' ->
         kids_of t_td (y_row y') = map (shown (r + Z.of_nat i)) (filter (covers_row (r + Z.of_nat i)) cs)
         /\ e_tag (y_row y') = e_tag (y_row y) /\ e_attrs (y_row y') = e_attrs (y_row y).
Proof.
  induction rows as [|y rows IH]; intros r H.
  - exists []. repeat split; destruct i; discriminate.
  - pose proof (H 0%nat y eq_refl) as (Hth & Hk & Hab). cbn [Z.of_nat] in Hk, Hab. rewrite Z.add_0_r in Hk, Hab.
    set (L := filter (covers_row r) cs) in *.
    assert (Eown : filter (starts_in r) L = filter (starts_in r) cs).
    { unfold L. rewrite filter_filter. apply filter_ext_in'. intros p Hp. destruct (Hcell p Hp) as (_ & _ & Hh & _).
      unfold covers_row, starts_in. lia. }
    assert (Eab : filter (fun p => negb (starts_in r p)) L = filter (open_above r) cs).
    { unfold L. rewrite filter_filter. apply filter_ext_in'. intros p Hp.
      unfold covers_row, starts_in, open_above. lia. }
    assert (HL : forall p, In p L -> attributes_agree p /\ 1 <= c_w p).
    { intros p Hp. apply filter_In in Hp as [Hp _]. destruct (Hcell p Hp) as (? & ? & _). auto. }
    pose proof (merge_abut r L 0 HL Hab) as MG. rewrite Eown, Eab in MG.
    pose proof (store_abut r L [] 0) as ST. cbn [app filter map] in ST. rewrite Eab in ST.
    specialize (ST HL (fun p (F : In p []) => match F with end) Hab).
    (* the row as yielded *)
    assert (Y : exists y', (match map (entry r) (filter (open_above r) cs) with
          | [] => Some y
          | _ => match sorted_row_children (y_row y) (map (entry r) (filter (open_above r) cs)) with
                 | Some ks => Some (mkY (Elem (e_tag (y_row y)) (e_attrs (y_row y)) [] ks) [])
                 | None => None
                 end
          end) = Some y'
        /\ kids_of t_td (y_row y') = map (shown r) L
        /\ e_tag (y_row y') = e_tag (y_row y) /\ e_attrs (y_row y') = e_attrs (y_row y)).
    { destruct (filter (open_above r) cs) as [|q qs] eqn:EO.
      - exists y. repeat split. rewrite Hk. unfold shown.
        assert (EqL : L = filter (starts_in r) cs).
        { rewrite <- Eown. symmetry. clear -Eab. induction L as [|p l IHl]; [reflexivity|]. cbn in *.
          destruct (starts_in r p); [|discriminate]. f_equal. apply IHl. exact Eab. }
        rewrite EqL. apply map_ext_in. intros p Hp. apply filter_In in Hp as [_ Hp]. rewrite Hp. reflexivity.
      - cbn [map]. unfold sorted_row_children.
        replace (map (fun '(n, k, _) => (n, k)) (entry r q :: map (entry r) qs)) with (map above_entry (q :: qs)).
        2: { cbn [map]. unfold entry at 1. unfold above_entry at 1. f_equal. rewrite map_map. reflexivity. }
        rewrite Hk, MG. eexists. split; [reflexivity|]. cbn [y_row e_tag e_attrs]. split; [|auto].
        apply kids_of_tds. apply forallb_forall. intros k Hkk. apply in_map_iff in Hkk as (p & <- & Hp).
        apply filter_In in Hp as [Hp _]. destruct (Hcell p Hp) as (_ & _ & _ & Ht). unfold shown.
        destruct (starts_in r p); cbn; rewrite Ht; apply seqb_refl. }
    destruct Y as (y' & EY & KY & TY & AY).
    (* the stored cells for the next row *)
    assert (EN : alst_count_decr (map (entry r) (filter (fun p => negb (starts_in r p) || (1 <? c_h p)) L))
      = map (entry (r + 1)) (filter (open_above (r + 1)) cs)).
    { rewrite decr_entries. f_equal. unfold L. rewrite !filter_filter. apply filter_ext_in'. intros p Hp.
      destruct (Hcell p Hp) as (_ & _ & Hh & _). unfold covers_row, starts_in, open_above. lia. }
    destruct (IH (r + 1)) as (ys & E & Len & Rows).
    { intros i z Hz. specialize (H (S i) z Hz). replace (r + 1 + Z.of_nat i) with (r + Z.of_nat (S i)) by lia. exact H. }
    exists (y' :: ys). cbn [row_loop]. rewrite Hth, EY, KY, ST, EN, E. split; [reflexivity|].
    split; [cbn; lia|]. intros i z z' Hz Hz'. destruct i as [|i].
    + cbn in Hz, Hz'. injection Hz as <-. injection Hz' as <-. rewrite Z.add_0_r. auto.
    + cbn in Hz, Hz'. replace (r + Z.of_nat (S i)) with (r + 1 + Z.of_nat i) by lia. eapply Rows; eassumption.
Qed.
End Tiling.

(** ** From tilings to abutting cells *)
Lemma tiling_row_abut R W cs r : tiling R W cs -> 0 <= r < R -> abut 0 (filter (covers_row r) cs).
Proof.
  intros (Hb & Hex & Hs) Hr. set (L := filter (covers_row r) cs).
  assert (HL : forall p, In p L -> 0 <= c_col p /\ 1 <= c_w p /\ c_col p + c_w p <= W /\ covers_row r p = true).
  { intros p Hp. apply filter_In in Hp as [Hp Hc]. destruct (Hb p Hp) as (? & ? & ? & ? & ?). auto. }
  assert (HS : StronglySorted (fun p q => c_col p <= c_col q) L).
  { clear -Hs. unfold L. induction Hs as [|p l Hs IH HF]; [constructor|]. cbn. destruct (covers_row r p); [|exact IH].
    constructor; [exact IH|]. rewrite Forall_forall in *. intros q Hq. apply filter_In in Hq as [Hq _]. auto. }
  assert (HX : forall c, 0 <= c < W -> exists p, filter (fun q => (c_col q <=? c) && (c <? c_col q + c_w q)) L = [p]).
  { intros c Hc. destruct (Hex r c Hr Hc) as (p & Hp). exists p. rewrite <- Hp. unfold L. rewrite filter_filter.
    apply filter_ext_in'. intros q _. unfold covers_pos. rewrite andb_assoc. reflexivity. }
  clearbody L. clear Hb Hex Hs.
  (* generalise the left edge *)
  assert (G : forall l x, 0 <= x <= W ->
     (forall p, In p l -> x <= c_col p /\ 1 <= c_w p /\ c_col p + c_w p <= W) ->
     StronglySorted (fun p q => c_col p <= c_col q) l ->
     (forall c, x <= c < W -> exists p, filter (fun q => (c_col q <=? c) && (c <? c_col q + c_w q)) l = [p]) ->
     abut x l).
  { clear. induction l as [|p l IH]; intros x Hx Hl Hs Hc; [exact I|].
    apply StronglySorted_inv in Hs as [Hs Hf]. rewrite Forall_forall in Hf.
    destruct (Hl p (or_introl eq_refl)) as (P1 & P2 & P3).
    assert (Ep : c_col p = x).
    { destruct (Z.eq_dec (c_col p) x) as [|Ne]; [assumption|]. exfalso.
      destruct (Hc x) as (q & Hq); [lia|].
      assert (Iq : In q (filter (fun q => (c_col q <=? x) && (x <? c_col q + c_w q)) (p :: l))) by (rewrite Hq; left; reflexivity).
      apply filter_In in Iq as [[<- | Iq] Hq2]; [lia|]. specialize (Hf q Iq). lia. }
    cbn. split; [exact Ep|].
    assert (Hge : forall q, In q l -> x + c_w p <= c_col q).
    { intros q Hq. destruct (Z_lt_le_dec (c_col q) (x + c_w p)) as [Lt|]; [|assumption]. exfalso.
      destruct (Hl q (or_intror Hq)) as (Q1 & Q2 & Q3).
      destruct (Hc (c_col q)) as (z & Hz); [lia|]. cbn [filter] in Hz.
      replace ((c_col p <=? c_col q) && (c_col q <? c_col p + c_w p)) with true in Hz by lia.
      injection Hz as _ Hz.
      assert (Iq : In q (filter (fun q0 => (c_col q0 <=? c_col q) && (c_col q <? c_col q0 + c_w q0)) l)).
      { apply filter_In. split; [exact Hq | lia]. }
      rewrite Hz in Iq. destruct Iq. }
    apply IH; [lia | | exact Hs |].
    - intros q Hq. destruct (Hl q (or_intror Hq)) as (Q1 & Q2 & Q3). specialize (Hge q Hq). lia.
    - intros c Hc'. destruct (Hc c) as (z & Hz); [lia|]. exists z. cbn [filter] in Hz.
      replace ((c_col p <=? c) && (c <? c_col p + c_w p)) with false in Hz by lia. exact Hz. }
  destruct (Z_le_gt_dec 0 W) as [HW|HW].
  - apply G; [lia | | exact HS | exact HX]. intros p Hp. destruct (HL p Hp) as (? & ? & ? & _). auto.
  - destruct L as [|p L]; [exact I|]. destruct (HL p (or_introl eq_refl)) as (? & ? & ? & _). lia.
Qed.

(** ** Selecting rows *)
Lemma select_rows_rows ks :
  map y_row (select_rows ks)
  = filter has_cell (map fst (filter (fun k => seqb (e_tag (fst k)) t_tr) ks)).
Proof.
  induction ks as [|k ks IH]; [reflexivity|]. cbn. destruct (seqb (e_tag (fst k)) t_tr); cbn; [|exact IH].
  assert (E : has_cell (fst k) = (match children t_td (fst k) with [] => false | _ => true end || contains_th (fst k))).
  { unfold has_cell, contains_th. destruct (children t_td (fst k)); [|reflexivity]. reflexivity. }
  rewrite E. destruct (_ || _); cbn; rewrite IH; reflexivity.
Qed.
Lemma select_rows_children tbl : map y_row (select_rows (e_kids tbl)) = filter has_cell (children t_tr tbl).
Proof. apply select_rows_rows. Qed.

Lemma filter_all {A} (p : A -> bool) l : (forall a, In a l -> p a = true) -> filter p l = l.
Proof. induction l as [|a l IH]; intros H; [reflexivity|]. cbn. rewrite H by (left; reflexivity). f_equal. apply IH. intros; apply H; right; assumption. Qed.

Lemma contains_th_children e : contains_th e = false <-> children t_th e = [].
Proof. unfold contains_th. destruct (children t_th e); split; congruence. Qed.

(** ** No spans *)
Lemma store_nospans tds : forall c,
  (forall k, In k tds -> (exists z, span_attr a_rowspan (fst k) = Some z /\ z <= 1)
                         /\ exists w, span_attr a_colspan (fst k) = Some w) ->
  store_spans tds c [] = Some [].
Proof.
  induction tds as [|k tds IH]; intros c H; [reflexivity|]. cbn.
  destruct (H k (or_introl eq_refl)) as [(z & -> & Hz) (w & ->)]. replace (1 <? z) with false by lia.
  apply IH. intros; apply H; right; assumption.
Qed.

Lemma row_loop_nospans rows :
  (forall y, In y rows -> children t_th (y_row y) = [] -> forall k, In k (kids_of t_td (y_row y)) ->
     (exists z, span_attr a_rowspan (fst k) = Some z /\ z <= 1)
     /\ exists w, span_attr a_colspan (fst k) = Some w) ->
  row_loop rows [] = (rows, None).
Proof.
  induction rows as [|y rows IH]; intros H; [reflexivity|]. cbn [row_loop].
  assert (H' : row_loop rows [] = (rows, None)) by (apply IH; intros; eapply H; eauto; right; assumption).
  destruct (contains_th (y_row y)) eqn:T.
  - rewrite H'. reflexivity.
  - rewrite store_nospans; [cbn; rewrite H'; reflexivity|].
    apply H; [left; reflexivity | apply contains_th_children; exact T].
Qed.

(** ** Header rows and rows without cells do not touch the stored cells *)
Definition same_rows (a b : list yrow) : Prop := map y_row a = map y_row b.

Lemma row_loop_ext a : forall b l, same_rows a b ->
  map y_row (fst (row_loop a l)) = map y_row (fst (row_loop b l)) /\ snd (row_loop a l) = snd (row_loop b l).
Proof.
  induction a as [|y a IH]; intros [|z b] l E; try discriminate; [split; reflexivity|].
  injection E as E1 E2. cbn [row_loop]. rewrite E1.
  destruct (contains_th (y_row z)).
  - destruct (IH b l E2) as [I1 I2]. destruct (row_loop a l) as [ys e], (row_loop b l) as [zs e']. cbn in *. subst.
    rewrite E1, I1. auto.
  - assert (X : forall ya yb, y_row ya = y_row yb ->
      map y_row (fst (match store_spans (kids_of t_td (y_row ya)) 0 l with
        | None => ([], Some EValueError)
        | Some l' => let '(ys, e) := row_loop a (alst_count_decr l') in (ya :: ys, e) end))
      = map y_row (fst (match store_spans (kids_of t_td (y_row yb)) 0 l with
        | None => ([], Some EValueError)
        | Some l' => let '(ys, e) := row_loop b (alst_count_decr l') in (yb :: ys, e) end))
      /\ snd (match store_spans (kids_of t_td (y_row ya)) 0 l with
        | None => ([], Some EValueError)
        | Some l' => let '(ys, e) := row_loop a (alst_count_decr l') in (ya :: ys, e) end)
      = snd (match store_spans (kids_of t_td (y_row yb)) 0 l with
        | None => ([], Some EValueError)
        | Some l' => let '(ys, e) := row_loop b (alst_count_decr l') in (yb :: ys, e) end)).
    { intros ya yb Ey. rewrite Ey. destruct (store_spans _ 0 l) as [l'|]; [|split; reflexivity].
      destruct (IH b (alst_count_decr l') E2) as [I1 I2].
      destruct (row_loop a (alst_count_decr l')) as [ys e], (row_loop b (alst_count_decr l')) as [zs e']. cbn in *. subst.
      rewrite Ey, I1. auto. }
    destruct l as [|x l]; [apply X; exact E1|].
    destruct (sorted_row_children (y_row z) (x :: l)) as [ks|]; [|split; reflexivity].
    apply X. reflexivity.
Qed.

Lemma row_loop_insert_th a h b : forall l, contains_th (y_row h) = true ->
  (snd (row_loop a l) <> None -> row_loop (a ++ h :: b) l = row_loop (a ++ b) l)
  /\ (snd (row_loop a l) = None ->
      exists ya yb, row_loop (a ++ b) l = (ya ++ yb, snd (row_loop (a ++ b) l))
        /\ List.length ya = List.length a
        /\ row_loop (a ++ h :: b) l = (ya ++ h :: yb, snd (row_loop (a ++ b) l))).
Proof.
  induction a as [|y a IH]; intros l Hh.
  - split; [intros H; destruct (H eq_refl)|]. intros _. exists [], (fst (row_loop b l)). cbn [app row_loop].
    rewrite Hh. destruct (row_loop b l) as [ys e]. cbn. auto.
  - cbn [app row_loop]. destruct (contains_th (y_row y)).
    + destruct (IH l Hh) as [I1 I2]. split.
      * intros H. rewrite I1; [reflexivity|]. destruct (row_loop a l) as [ys e]. exact H.
      * intros H. destruct I2 as (ya & yb & E1 & E2 & E3); [destruct (row_loop a l) as [ys e]; exact H|].
        destruct (row_loop (a ++ b) l) as [zs e] eqn:EB. cbn in E1, E3. injection E1 as ->.
        exists (y :: ya), yb. rewrite E3. cbn. auto.
    + assert (X : forall y',
       (snd (match store_spans (kids_of t_td (y_row y')) 0 l with
        | None => ([], Some EValueError)
        | Some l' => let '(ys, e) := row_loop a (alst_count_decr l') in (y' :: ys, e) end) <> None ->
        match store_spans (kids_of t_td (y_row y')) 0 l with
        | None => ([], Some EValueError)
        | Some l' => let '(ys, e) := row_loop (a ++ h :: b) (alst_count_decr l') in (y' :: ys, e) end
        = match store_spans (kids_of t_td (y_row y')) 0 l with
        | None => ([], Some EValueError)
        | Some l' => let '(ys, e) := row_loop (a ++ b) (alst_count_decr l') in (y' :: ys, e) end)
       /\ (snd (match store_spans (kids_of t_td (y_row y')) 0 l with
        | None => ([], Some EValueError)
        | Some l' => let '(ys, e) := row_loop a (alst_count_decr l') in (y' :: ys, e) end) = None ->
        exists ya yb, match store_spans (kids_of t_td (y_row y')) 0 l with
        | None => ([], Some EValueError)
        | Some l' => let '(ys, e) := row_loop (a ++ b) (alst_count_decr l') in (y' :: ys, e) end
         = (ya ++ yb, snd (match store_spans (kids_of t_td (y_row y')) 0 l with
        | None => ([], Some EValueError)
        | Some l' => let '(ys, e) := row_loop (a ++ b) (alst_count_decr l') in (y' :: ys, e) end))
         /\ List.length ya = List.length (y :: a)
         /\ match store_spans (kids_of t_td (y_row y')) 0 l with
        | None => ([], Some EValueError)
        | Some l' => let '(ys, e) := row_loop (a ++ h :: b) (alst_count_decr l') in (y' :: ys, e) end
         = (ya ++ h :: yb, snd (match store_spans (kids_of t_td (y_row y')) 0 l with
        | None => ([], Some EValueError)
        | Some l' => let '(ys, e) := row_loop (a ++ b) (alst_count_decr l') in (y' :: ys, e) end)))).
      { intros y'. destruct (store_spans _ 0 l) as [l'|]; [|split; [reflexivity | discriminate]].
        destruct (IH (alst_count_decr l') Hh) as [I1 I2]. split.
        - intros H. rewrite I1; [reflexivity|]. destruct (row_loop a _) as [ys e]. exact H.
        - intros H. destruct I2 as (ya & yb & E1 & E2 & E3); [destruct (row_loop a _) as [ys e]; exact H|].
          destruct (row_loop (a ++ b) (alst_count_decr l')) as [zs e] eqn:EB. cbn in E1, E3. injection E1 as ->.
          exists (y' :: ya), yb. rewrite E3. cbn. auto. }
      destruct l as [|x l]; [apply X|].
      destruct (sorted_row_children (y_row y) (x :: l)) as [ks|]; [apply X|].
      split; [reflexivity | discriminate].
Qed.

Lemma select_rows_app a b :
  map y_row (select_rows (a ++ b)) = map y_row (select_rows a) ++ map y_row (select_rows b).
Proof. rewrite !select_rows_rows, filter_app, map_app, filter_app. reflexivity. Qed.
