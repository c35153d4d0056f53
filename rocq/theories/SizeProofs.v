(** Nested tables are smaller than the table they are in; recursion depth does not matter. *)
From Coq Require Import NArith ZArith List Bool String Lia ZifyBool ZifyN.
From Verif Require Import PyTables PyStr PyStrFacts Xml Json Lint RowIter Helpers Extract Document
  MFacts SpecText SpecFields SpecLabel SpecRows SpecTable RowProofs HeaderProofs TableProofs.
Import ListNotations.
Local Open Scope list_scope.

(** ** Where the cells of the yielded rows come from *)
Section CELLS.
Variable Q : elem -> Prop.
Hypothesis Qdel : forall e, Q e -> Q (del_attr a_rowspan e).

Definition stored_ok (l : alst) := forall n k c, In (n, k, c) l -> Q (fst k).

Lemma flush_kids pend : forall c ys p c',
  (forall x, In x pend -> Q (fst (snd x))) ->
  flush pend c = Some (ys, p, c') ->
  (forall k, In k ys -> Q (fst k)) /\ (forall x, In x p -> Q (fst (snd x))).
Proof.
  induction pend as [|[off k] pend IH]; intros c ys p c' H E; cbn in E.
  - injection E as <- <- <-. split; intros ? [].
  - destruct (off =? c)%Z.
    + destruct (span_attr a_colspan (fst k)) as [w|]; [|discriminate].
      destruct (flush pend (c + w)) as [[[ys' p'] c'']|] eqn:F; [|discriminate]. injection E as <- <- <-.
      destruct (IH _ _ _ _ (fun x Hx => H x (or_intror Hx)) F) as [A B]. split; [|exact B].
      intros k' [<- | Hk]; [apply (H (off, k)); left; reflexivity | apply A, Hk].
    + injection E as <- <- <-. split; [intros ? [] | exact H].
Qed.

Lemma merge_kids tds : forall pend c ks,
  (forall k, In k tds -> Q (fst k)) -> (forall x, In x pend -> Q (fst (snd x))) ->
  merge_cells tds pend c = Some ks -> forall k, In k ks -> Q (fst k).
Proof.
  induction tds as [|td tds IH]; intros pend c ks H1 H2 E; cbn in E.
  - destruct pend as [|[off k] r]; injection E as <-; [intros ? []|].
    intros k' Hk. apply in_app_or in Hk as [Hk | Hk].
    + destruct (off =? c)%Z; [|destruct Hk]. destruct Hk as [<- | []]. apply (H2 (off, k)). left. reflexivity.
    + apply in_map_iff in Hk as (x & <- & Hx). apply H2. right. exact Hx.
  - destruct (flush pend c) as [[[ys p] c']|] eqn:F; [|discriminate].
    destruct (span_attr a_colspan (fst td)) as [w|]; [|discriminate].
    destruct (merge_cells tds p (c' + w)) as [zs|] eqn:Mz; [|discriminate]. injection E as <-.
    destruct (flush_kids _ _ _ _ _ H2 F) as [A B].
    intros k Hk. apply in_app_or in Hk as [Hk | [<- | Hk]].
    + apply A, Hk.
    + apply H1. left. reflexivity.
    + eapply IH; try eassumption. intros; apply H1; right; assumption.
Qed.

Lemma insert_ok l n k c : stored_ok l -> Q (fst k) -> stored_ok (alst_insert l n k c).
Proof.
  intros H Hk. induction l as [|[[n' k'] c'] l IH]; cbn.
  - intros a b d [[= <- <- <-] | []]. exact Hk.
  - destruct (n <? n')%Z.
    + intros a b d [[= <- <- <-] | I]; [exact Hk | eapply H; exact I].
    + intros a b d [[= <- <- <-] | I]; [eapply H; left; reflexivity|].
      eapply IH; [|exact I]. intros x y z J. eapply H. right. exact J.
Qed.
Lemma store_ok tds : forall c l l', (forall k, In k tds -> Q (fst k)) -> stored_ok l ->
  store_spans tds c l = Some l' -> stored_ok l'.
Proof.
  induction tds as [|td tds IH]; intros c l l' H1 H2 E; cbn in E; [injection E as <-; exact H2|].
  destruct (span_attr a_rowspan (fst td)) as [rs|]; [|discriminate].
  destruct (span_attr a_colspan (fst td)) as [w|]; [|discriminate].
  eapply IH; [| |exact E]; [intros; apply H1; right; assumption|].
  destruct (1 <? rs)%Z; [|exact H2]. apply insert_ok; [exact H2|]. cbn [fst]. apply Qdel, H1. left. reflexivity.
Qed.
Lemma decr_ok l : stored_ok l -> stored_ok (alst_count_decr l).
Proof.
  intros H n k c I. apply in_flat_map in I as ([[n' k'] c'] & I & J). destruct (1 <? c')%Z; [|destruct J].
  destruct J as [[= <- <- <-] | []]. eapply H, I.
Qed.

Lemma children_kids tag e td : In td (children tag e) -> exists tl, In (td, tl) (kids_of tag e).
Proof. unfold children. intros H. apply in_map_iff in H as ([a b] & <- & H). exists b. exact H. Qed.

Lemma row_loop_cells rows : forall l,
  (forall y k, In y rows -> In k (kids_of t_td (y_row y)) -> Q (fst k)) -> stored_ok l ->
  forall y td, In y (fst (row_loop rows l)) -> In td (children t_td (y_row y)) -> Q td.
Proof.
  induction rows as [|y0 rows IH]; intros l H1 H2 y td Hy Htd; [destruct Hy|]. cbn [row_loop] in Hy.
  assert (H1' : forall y k, In y rows -> In k (kids_of t_td (y_row y)) -> Q (fst k))
    by (intros z k Hz; apply H1; right; exact Hz).
  destruct (contains_th (y_row y0)).
  - specialize (IH l H1' H2 y td). destruct (row_loop rows l) as [ys e]. destruct Hy as [-> | Hy]; [|apply IH; assumption].
    apply children_kids in Htd as (tl & K). apply (H1 y (td, tl)); [left; reflexivity | exact K].
  - match type of Hy with In _ (fst (match ?b with _ => _ end)) => set (rb := b) in *; destruct rb as [y'|] eqn:RB; [|destruct Hy] end.
    assert (K' : forall k, In k (kids_of t_td (y_row y')) -> Q (fst k)).
    { subst rb. destruct l as [|e0 l0].
      - injection RB as <-. intros k Hk. apply (H1 y0 k); [left; reflexivity | exact Hk].
      - destruct (sorted_row_children (y_row y0) (e0 :: l0)) as [ks|] eqn:S; [|discriminate]. injection RB as <-.
        cbn [y_row]. intros k Hk. apply filter_In in Hk as [Hk _]. cbn [e_kids] in Hk.
        revert k Hk. eapply merge_kids; [| |exact S].
        + intros k Hk. apply (H1 y0 k); [left; reflexivity | exact Hk].
        + intros [n k] Hx. apply in_map_iff in Hx as ([[a b] c] & [= <- <-] & Hx). cbn. eapply H2, Hx. }
    destruct (store_spans (kids_of t_td (y_row y')) 0 l) as [l'|] eqn:SS; [|destruct Hy].
    specialize (IH (alst_count_decr l') H1' (decr_ok _ (store_ok _ _ _ _ K' H2 SS)) y td).
    destruct (row_loop rows (alst_count_decr l')) as [ys e]. destruct Hy as [-> | Hy]; [|apply IH; assumption].
    apply children_kids in Htd as (tl & K). apply (K' (td, tl)). exact K.
Qed.
End CELLS.

(** The elements following a yielded row are those following the row in the table, or none. *)
Lemma row_loop_sibs rows : forall l y, In y (fst (row_loop rows l)) ->
  y_sibs y = [] \/ exists y0, In y0 rows /\ y_sibs y = y_sibs y0.
Proof.
  induction rows as [|y0 rows IH]; intros l y Hy; [destruct Hy|]. cbn [row_loop] in Hy.
  destruct (contains_th (y_row y0)).
  - specialize (IH l y). destruct (row_loop rows l) as [ys e]. destruct Hy as [-> | Hy].
    + right. exists y. split; [left; reflexivity | reflexivity].
    + destruct (IH Hy) as [E | (z & Hz & E)]; [left; exact E | right; exists z; split; [right; exact Hz | exact E]].
  - match type of Hy with In _ (fst (match ?b with _ => _ end)) => set (rb := b) in *; destruct rb as [y'|] eqn:RB; [|destruct Hy] end.
    assert (S' : y_sibs y' = [] \/ y_sibs y' = y_sibs y0).
    { subst rb. destruct l as [|e0 l0]; [injection RB as <-; right; reflexivity|].
      destruct (sorted_row_children _ _); [injection RB as <-; left; reflexivity | discriminate]. }
    destruct (store_spans (kids_of t_td (y_row y')) 0 l) as [l'|]; [|destruct Hy].
    specialize (IH (alst_count_decr l') y). destruct (row_loop rows (alst_count_decr l')) as [ys e]. destruct Hy as [-> | Hy].
    + destruct S' as [S' | S']; [left; exact S' | right; exists y0; split; [left; reflexivity | exact S']].
    + destruct (IH Hy) as [E | (z & Hz & E)]; [left; exact E | right; exists z; split; [right; exact Hz | exact E]].
Qed.

Definition ksize (ks : list kid) : nat := list_sum (map (fun k => esize (fst k)) ks).
Lemma esize_kids e : esize e = S (ksize (e_kids e)).
Proof. destruct e; reflexivity. Qed.
Lemma ksize_cons k ks : ksize (k :: ks) = (esize (fst k) + ksize ks)%nat.
Proof. reflexivity. Qed.
Lemma ksize_app a b : ksize (a ++ b) = (ksize a + ksize b)%nat.
Proof. unfold ksize. rewrite map_app. apply list_sum_app. Qed.
Lemma ksize_In k ks : In k ks -> (esize (fst k) <= ksize ks)%nat.
Proof.
  induction ks as [|a ks IH]; intros H; [destruct H|]. rewrite ksize_cons. destruct H as [-> | H]; [lia | specialize (IH H); lia].
Qed.
Lemma esize_child tag e c : In c (children tag e) -> (esize c < esize e)%nat.
Proof.
  intros H. apply children_kids in H as (tl & H). unfold kids_of in H. apply filter_In in H as [H _].
  rewrite (esize_kids e). apply ksize_In in H. cbn in H. lia.
Qed.
Lemma esize_del a e : esize (del_attr a e) = esize e.
Proof. destruct e; reflexivity. Qed.

Lemma select_rows_In ks y : In y (select_rows ks) ->
  exists a tl, ks = a ++ (y_row y, tl) :: y_sibs y /\ e_tag (y_row y) = t_tr.
Proof.
  induction ks as [|k ks IH]; cbn; intros H; [destruct H|].
  destruct (seqb_spec (e_tag (fst k)) t_tr) as [T|T]; cbn in H.
  - destruct (_ || _).
    + destruct H as [<- | H].
      * exists [], (snd k). cbn. destruct k. split; [reflexivity | exact T].
      * destruct (IH H) as (a & tl & -> & E). exists (k :: a), tl. split; [reflexivity | exact E].
    + destruct (IH H) as (a & tl & -> & E). exists (k :: a), tl. split; [reflexivity | exact E].
  - destruct (IH H) as (a & tl & -> & E). exists (k :: a), tl. split; [reflexivity | exact E].
Qed.

Lemma row_iter_cells tbl y td sub :
  In y (fst (row_iter tbl)) -> In td (children t_td (y_row y)) -> In sub (children t_table td) ->
  (esize sub < esize tbl)%nat.
Proof.
  intros Hy Ht Hs. apply esize_child in Hs.
  assert (esize td < esize tbl)%nat; [|lia].
  revert Ht. unfold row_iter in Hy.
  apply (row_loop_cells (fun e => (esize e < esize tbl)%nat)) with (rows := select_rows (e_kids tbl)) (l := []).
  - intros e. rewrite esize_del. auto.
  - intros z k Hz Hk. apply select_rows_In in Hz as (a & tl & E & _).
    assert (In (y_row z, tl) (e_kids tbl)) as I by (rewrite E; apply in_elt).
    apply ksize_In in I. cbn in I. rewrite (esize_kids tbl).
    apply filter_In in Hk as [Hk _]. apply ksize_In in Hk. rewrite (esize_kids (y_row z)) in I. lia.
  - intros n k c [].
  - exact Hy.
Qed.

Lemma row_iter_sibs tbl y : In y (fst (row_iter tbl)) -> (esize (Elem t_table [] [] (y_sibs y)) < esize tbl)%nat.
Proof.
  intros Hy. unfold row_iter in Hy.
  assert (NE : exists z, In z (select_rows (e_kids tbl))).
  { destruct (select_rows (e_kids tbl)) as [|z r] eqn:E; [destruct Hy | exists z; left; reflexivity]. }
  rewrite !esize_kids. cbn [e_kids].
  apply row_loop_sibs in Hy as [-> | (z & Hz & ->)].
  - destruct NE as (z & Hz). apply select_rows_In in Hz as (a & tl & E & _).
    assert (In (y_row z, tl) (e_kids tbl)) as I by (rewrite E; apply in_elt).
    apply ksize_In in I. cbn [fst] in I. rewrite (esize_kids (y_row z)) in I. change (ksize []) with 0%nat. lia.
  - apply select_rows_In in Hz as (a & tl & -> & _). rewrite ksize_app, ksize_cons. cbn [fst].
    rewrite (esize_kids (y_row z)). lia.
Qed.

Lemma split_size h y m tb : row_err_handler h y = (PStop, Some (m, tb)) ->
  tb = Elem t_table [] [] (y_sibs y).
Proof.
  unfold row_err_handler. destruct h.
  - destruct (children t_td (y_row y)) as [|? [|? ?]]; discriminate.
  - destruct (startswith _ _); [intros [= <- <-]; reflexivity | discriminate].
  - destruct (endswith _ _); discriminate.
Qed.

(** ** The figures an extractor hands on are smaller *)
Section EXT.
Variables p q : meta -> elem -> M unit.

Lemma iterM_ext {A} (g h : A -> M unit) l f : (forall a f, In a l -> g a f = h a f) -> iterM g l f = iterM h l f.
Proof.
  revert f. induction l as [|a l IH]; intros f H; [reflexivity|]. cbn [iterM]. apply bind_ext.
  - apply H. left. reflexivity.
  - intros _ f'. apply IH. intros; apply H; right; assumption.
Qed.

Lemma row_step_ext tbl x dyn y f :
  (forall m tb f, (esize tb < esize tbl)%nat -> p m tb f = q m tb f) -> In y (fst (row_iter tbl)) ->
  row_step p x dyn y f = row_step q x dyn y f.
Proof.
  intros H Hy. unfold row_step. destruct (extract_fields x (y_row y)) as [[[[rt ct] lt] c]|] eqn:EF; [|reflexivity].
  destruct (_ || _); [reflexivity|].
  apply bind_k. intros r g. apply bind_k. intros l g'. apply bind_ext; [|reflexivity].
  apply iterM_ext. intros a f0 Ha. apply H. apply extract_fields_some in EF as (k & l0 & (_ & RC & _) & _).
  eapply row_iter_cells; [exact Hy | eapply nth_error_In, RC | exact Ha].
Qed.

Lemma run_rows_ext tbl x rows fin : 
  (forall m tb f, (esize tb < esize tbl)%nat -> p m tb f = q m tb f) ->
  (forall y, In y rows -> In y (fst (row_iter tbl))) ->
  forall dyn fields f, run_rows p x rows fin dyn fields f = run_rows q x rows fin dyn fields f.
Proof.
  intros H. induction rows as [|y rows IH]; intros I dyn fields f; [reflexivity|]. cbn [run_rows].
  assert (I' : forall y, In y rows -> In y (fst (row_iter tbl))) by (intros; apply I; right; assumption).
  destruct (contains_th (y_row y)); [apply IH, I'|]. apply bind_ext.
  - apply (row_step_ext tbl); [exact H | apply I; left; reflexivity].
  - intros [fld| |ex] g; try apply IH, I'. reflexivity.
Qed.

(** The extra figure of a struct table comes from one of its rows. *)
Lemma run_rows_extra x rows fin : forall dyn fields f fs m tb f' t,
  run_rows p x rows fin dyn fields f = (Ok (fs, Some (m, tb)), f', t) ->
  exists y, In y rows /\ children t_th (y_row y) = [] /\ row_err_handler (ec_handler (x_cls x)) y = (PStop, Some (m, tb)).
Proof.
  induction rows as [|y rows IH]; intros dyn fields f fs m tb f' t H.
  - cbn in H. destruct fin; discriminate.
  - cbn [run_rows] in H. destruct (contains_th (y_row y)) eqn:TH.
    + destruct (IH _ _ _ _ _ _ _ _ H) as (z & Hz & R). exists z. split; [right; exact Hz | exact R].
    + apply contains_th_children in TH. apply bind_ok_inv in H as (o & f1 & t1 & t2 & E1 & E2 & ->).
      destruct o as [fld| |ex].
      * destruct (IH _ _ _ _ _ _ _ _ E2) as (z & Hz & R). exists z. split; [right; exact Hz | exact R].
      * destruct (IH _ _ _ _ _ _ _ _ E2) as (z & Hz & R). exists z. split; [right; exact Hz | exact R].
      * injection E2 as -> -> <- <-. exists y. split; [left; reflexivity|]. split; [exact TH|].
        unfold row_step in E1. destruct (extract_fields x (y_row y)) as [[[[rt ct] lt] c]|].
        -- destruct (_ || _).
           ++ destruct (is_special_case rt); [discriminate|].
              apply bind_ok_inv in E1 as (r & g1 & u1 & u2 & _ & E & _). destruct (handle_special_case ct r); discriminate.
           ++ apply bind_ok_inv in E1 as (r & g1 & u1 & u2 & _ & E & _).
              apply bind_ok_inv in E as (r' & g2 & u3 & u4 & _ & E & _).
              apply bind_ok_inv in E as (r'' & g3 & u5 & u6 & _ & E & _). discriminate.
        -- destruct (startswith ELLIPSIS _); [discriminate|]. destruct (startswith (utf8 "note") _); [discriminate|].
           destruct (row_err_handler (ec_handler (x_cls x)) y) as [[] ex]; try discriminate.
           injection E1 as -> _ _. reflexivity.
Qed.

Lemma struct_call_ext x k tbl f :
  (forall m tb f, (esize tb < esize tbl)%nat -> p m tb f = q m tb f) ->
  struct_call p x k tbl f = struct_call q x k tbl f.
Proof.
  intros H. unfold struct_call. destruct (row_iter tbl) as [rows fin] eqn:RI.
  assert (RE : forall f, struct_loop p x rows fin false [] f = struct_loop q x rows fin false [] f).
  { intros g. rewrite !struct_loop_run. apply (run_rows_ext tbl); [exact H|]. rewrite RI. auto. }
  unfold bind at 1. unfold bind at 3. rewrite <- RE.
  destruct (struct_loop p x rows fin false [] f) as [[[[fs ex]|e|] f1] t1] eqn:E; try reflexivity.
  match goal with |- (let '(_, _) := ?a in _) = (let '(_, _) := ?b in _) => replace a with b; [reflexivity|] end.
  symmetry. apply bind_k. intros _ g. apply bind_k. intros _ g'. destruct ex as [[m tb]|]; [|reflexivity].
  apply H. rewrite struct_loop_run in E. apply run_rows_extra in E as (y & Hy & _ & E). apply split_size in E as ->.
  apply row_iter_sibs. rewrite RI. exact Hy.
Qed.

Lemma vrow_step_ext tbl ov x y f :
  (forall m tb f, (esize tb < esize tbl)%nat -> p m tb f = q m tb f) -> In y (fst (row_iter tbl)) ->
  vrow_step p ov x y f = vrow_step q ov x y f.
Proof.
  intros H Hy. unfold vrow_step. destruct (key_elem x (y_row y)) as [k|]; [|reflexivity].
  destruct (content_elem x (y_row y)) as [c|] eqn:EC; [|reflexivity].
  destruct (seqb _ _); [reflexivity|]. apply bind_k. intros l g. apply bind_ext; [|reflexivity].
  apply iterM_ext. intros a f0 Ha. apply H.
  eapply row_iter_cells; [exact Hy | eapply nth_error_In, EC | exact Ha].
Qed.

Lemma vrun_rows_ext tbl ov x rows fin :
  (forall m tb f, (esize tb < esize tbl)%nat -> p m tb f = q m tb f) ->
  (forall y, In y rows -> In y (fst (row_iter tbl))) ->
  forall fields f, vrun_rows p ov x rows fin fields f = vrun_rows q ov x rows fin fields f.
Proof.
  intros H. induction rows as [|y rows IH]; intros I fields f; [reflexivity|]. cbn [vrun_rows].
  assert (I' : forall y, In y rows -> In y (fst (row_iter tbl))) by (intros; apply I; right; assumption).
  destruct (contains_th (y_row y)); [apply IH, I'|]. apply bind_ext.
  - apply (vrow_step_ext tbl); [exact H | apply I; left; reflexivity].
  - intros [fld| |] g; try apply IH, I'. reflexivity.
Qed.

Lemma value_call_ext ov x tbl f :
  (forall m tb f, (esize tb < esize tbl)%nat -> p m tb f = q m tb f) ->
  value_call p ov x tbl f = value_call q ov x tbl f.
Proof.
  intros H. unfold value_call. destruct (row_iter tbl) as [rows fin] eqn:RI. apply bind_ext; [|reflexivity].
  rewrite !value_loop_run. apply (vrun_rows_ext tbl); [exact H|]. rewrite RI. auto.
Qed.
End EXT.

(** ** Recursion depth does not matter once it exceeds the size *)
Lemma run_extractor_cases p P m tbl hdrs c mp run :
  run_extractor p P m tbl hdrs c mp = Some run ->
  exists k l d, run = match ec_kind c with
                      | EKStruct sk => struct_call p (mkX c m k l d) sk tbl
                      | EKValues => value_call p (p_label_overrides P) (mkX c m k l d) tbl
                      end
    /\ forall q, run_extractor q P m tbl hdrs c mp
                 = Some (match ec_kind c with
                         | EKStruct sk => struct_call q (mkX c m k l d) sk tbl
                         | EKValues => value_call q (p_label_overrides P) (mkX c m k l d) tbl
                         end).
Proof.
  unfold run_extractor. destruct (col_index hdrs (mp_key mp) 0 None) as [k|]; [|discriminate].
  destruct (col_index hdrs (mp_label mp) 0 None) as [l|]; [|discriminate].
  destruct (col_index hdrs (mp_content mp) 0 None) as [d|]; [|discriminate].
  intros [= <-]. exists k, l, d. split; [reflexivity|]. reflexivity.
Qed.
Lemma run_extractor_none p q P m tbl hdrs c mp :
  run_extractor p P m tbl hdrs c mp = None -> run_extractor q P m tbl hdrs c mp = None.
Proof.
  unfold run_extractor. destruct (col_index hdrs (mp_key mp) 0 None) as [k|]; [|reflexivity].
  destruct (col_index hdrs (mp_label mp) 0 None) as [l|]; [|reflexivity].
  destruct (col_index hdrs (mp_content mp) 0 None) as [d|]; [discriminate | reflexivity].
Qed.

Lemma catch_ext m m' h f : m f = m' f -> catch m h f = catch m' h f.
Proof. intros E. unfold catch. rewrite E. reflexivity. Qed.

Lemma on_parse_fig_depth P : forall n n' m tbl f, (esize tbl < n)%nat -> (esize tbl < n')%nat ->
  on_parse_fig n P m tbl f = on_parse_fig n' P m tbl f.
Proof.
  induction n as [|n IH]; intros n' m tbl f H H'; [lia|]. destruct n' as [|n']; [lia|]. cbn [on_parse_fig].
  apply bind_k. intros _ g. apply bind_k. intros hdrs g'.
  assert (S : forall m tb f, (esize tb < esize tbl)%nat -> on_parse_fig n P m tb f = on_parse_fig n' P m tb f)
    by (intros; apply IH; lia).
  assert (R : forall c mp f, match run_extractor (on_parse_fig n P) P m tbl hdrs c mp with
                     | Some run => catch run (on_fig_error P m) | None => throw EKeyError end f
              = match run_extractor (on_parse_fig n' P) P m tbl hdrs c mp with
                     | Some run => catch run (on_fig_error P m) | None => throw EKeyError end f).
  { intros c mp g2. destruct (run_extractor (on_parse_fig n P) P m tbl hdrs c mp) as [run|] eqn:E.
    - apply run_extractor_cases in E as (k & l & d & -> & E). rewrite (E (on_parse_fig n' P)). apply catch_ext.
      destruct (ec_kind c); [apply struct_call_ext, S | apply value_call_ext, S].
    - rewrite (run_extractor_none _ (on_parse_fig n' P) _ _ _ _ _ _ E). reflexivity. }
  destruct (lookup_fig (p_fig_overrides P) (m_fig m)) as [c|].
  - destruct (can_apply c hdrs) as [mp|]; [apply R | reflexivity].
  - destruct (select_extractor extractors hdrs) as [[c mp]|]; [apply R | reflexivity].
Qed.

(** So the depth can be left out. *)
Lemma parse_figure_depth P n m tbl f : (esize tbl < n)%nat -> on_parse_fig n P m tbl f = parse_figure P m tbl f.
Proof. intros H. unfold parse_figure. apply on_parse_fig_depth; lia. Qed.

(** One unfolding of the recursion. *)
Definition figure_body (P : parser) (m : meta) (tbl : elem) (c : ecls) (hdrs : list str) (mp : mapping) : M unit :=
  match run_extractor (parse_figure P) P m tbl hdrs c mp with
  | Some run => catch run (on_fig_error P m)
  | None => throw EKeyError
  end.

Local Open Scope m_scope.
Lemma parse_figure_unfold P m tbl f :
  parse_figure P m tbl f =
  (set_flag false ;;
   hdrs <- extract_tbl_headers (m_fig m) tbl ;;
   match lookup_fig (p_fig_overrides P) (m_fig m) with
   | None =>
       match select_extractor extractors hdrs with
       | None => add_issue T1007 (m_fig m) None [(utf8 "columns", JList (map JStr hdrs))]
       | Some (c, mp) => figure_body P m tbl c hdrs mp
       end
   | Some c =>
       match can_apply c hdrs with
       | None => throw ERuntime
       | Some mp => figure_body P m tbl c hdrs mp
       end
   end) f.
Proof.
  unfold parse_figure at 1. cbn [on_parse_fig]. apply bind_k. intros _ g. apply bind_k. intros hdrs g'.
  assert (R : forall c mp f, match run_extractor (on_parse_fig (esize tbl) P) P m tbl hdrs c mp with
                     | Some run => catch run (on_fig_error P m) | None => throw EKeyError end f
              = figure_body P m tbl c hdrs mp f).
  { intros c mp g2. unfold figure_body. destruct (run_extractor (on_parse_fig (esize tbl) P) P m tbl hdrs c mp) as [run|] eqn:E.
    - apply run_extractor_cases in E as (k & l & d & -> & E). rewrite (E (parse_figure P)). apply catch_ext.
      assert (S : forall m tb f, (esize tb < esize tbl)%nat -> on_parse_fig (esize tbl) P m tb f = parse_figure P m tb f)
        by (intros; apply parse_figure_depth; assumption).
      destruct (ec_kind c); [apply struct_call_ext, S | apply value_call_ext, S].
    - rewrite (run_extractor_none _ (parse_figure P) _ _ _ _ _ _ E). reflexivity. }
  destruct (lookup_fig (p_fig_overrides P) (m_fig m)) as [c|].
  - destruct (can_apply c hdrs) as [mp|]; [apply R | reflexivity].
  - destruct (select_extractor extractors hdrs) as [[c mp]|]; [apply R | reflexivity].
Qed.
