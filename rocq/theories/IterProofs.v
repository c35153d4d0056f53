(** The rows of any table are those specified in SpecIter.v. *)
From Coq Require Import ZArith List Bool Lia ZifyBool.
From Verif Require Import PyStr PyStrFacts Xml Lint RowIter SpecIter.
Import ListNotations.
Local Open Scope Z_scope.

Lemma spans_iff a td n : spans a td n <-> span_attr a (fst td) = Some n.
Proof. unfold spans, span_attr. destruct (attr a (fst td)); [reflexivity|]. split; [intros ->; reflexivity | intros [= <-]; reflexivity]. Qed.

Lemma has_th e : contains_th e = false <-> children t_th e = [].
Proof. unfold contains_th. destruct (children t_th e); split; congruence. Qed.
Lemma cell_rows_ok ks : cell_rows ks (select_rows ks).
Proof.
  induction ks as [|k ks IH]; cbn [select_rows]; [constructor|].
  destruct (seqb (e_tag (fst k)) t_tr) eqn:T; cbn [andb].
  - apply seqb_eq in T. destruct (children t_td (fst k)) eqn:D; cbn [orb].
    + destruct (contains_th (fst k)) eqn:C.
      * apply cr_row; [exact T | right; intros E; apply has_th in E; congruence | exact IH].
      * apply has_th in C. apply cr_other; [right; auto | exact IH].
    + apply cr_row; [exact T | left; congruence | exact IH].
  - apply seqb_neq in T. apply cr_other; [left; exact T | exact IH].
Qed.
Lemma cell_rows_fun ks a b : cell_rows ks a -> cell_rows ks b -> a = b.
Proof.
  intros A. revert b. induction A as [|tr s ys T N A IH|k s ys N A IH]; intros b B; inversion B; subst; try reflexivity.
  - f_equal. apply IH. assumption.
  - exfalso. intuition congruence.
  - exfalso. intuition congruence.
  - apply IH. assumption.
Qed.

(** What is flushed before an own cell is given before it. *)
Lemma flush_ok td own pend : forall c ys p c',
  flush pend c = Some (ys, p, c') ->
  (forall k r, p <> (c', k) :: r)
  /\ forall out, filled c' (td :: own) p out -> filled c (td :: own) pend (ys ++ out).
Proof.
  induction pend as [|[off k] pend IH]; intros c ys p c'; cbn [flush].
  - intros [= <- <- <-]. split; [discriminate | auto].
  - destruct (Z.eqb_spec off c) as [->|N].
    + destruct (span_attr a_colspan (fst k)) as [w|] eqn:W; [|discriminate].
      destruct (flush pend (c + w)) as [[[ys0 p0] c0]|] eqn:F; [|discriminate]. intros [= <- <- <-].
      destruct (IH _ _ _ _ F) as [A B]. split; [exact A|]. intros out O. cbn [app]. eapply fi_reaching; [apply spans_iff, W | apply B, O].
    + intros [= <- <- <-]. split; [intros k0 r [= E _ _]; congruence | auto].
Qed.
Lemma flush_inv td own pend : forall c out, filled c (td :: own) pend out ->
  exists ys p c' out', flush pend c = Some (ys, p, c') /\ filled c' (td :: own) p out' /\ out = ys ++ out' /\ forall k r, p <> (c', k) :: r.
Proof.
  induction pend as [|[off k] pend IH]; intros c out H.
  - exists [], [], c, out. repeat split; try discriminate. exact H.
  - cbn [flush]. destruct (Z.eqb_spec off c) as [->|N].
    + inversion H as [? ? ? ? w ? out' W O| ? ? ? ? ? ? NO| | |]; subst; [|exfalso; eapply NO; reflexivity].
      apply spans_iff in W. rewrite W. destruct (IH _ _ O) as (ys & p & c' & o & F & O' & -> & NP). rewrite F.
      exists (k :: ys), p, c', o. auto.
    + exists [], ((off, k) :: pend), c, out. repeat split; try assumption. intros k0 r [= E _ _]. congruence.
Qed.
Lemma filled_iff tds : forall pend c out, merge_cells tds pend c = Some out <-> filled c tds pend out.
Proof.
  induction tds as [|td tds IH]; intros pend c out; cbn [merge_cells].
  - destruct pend as [|[off k] r].
    + split; [intros [= <-]; constructor | intros H; inversion H; reflexivity].
    + split.
      * intros [= <-]. destruct (Z.eqb_spec off c) as [->|N]; cbn [app]; [apply fi_end_at | apply fi_end_off, N].
      * intros H; inversion H; subst; [rewrite Z.eqb_refl; reflexivity|]. destruct (Z.eqb_spec off c); [contradiction | reflexivity].
  - split.
    + destruct (flush pend c) as [[[ys p] c']|] eqn:F; [|discriminate]. destruct (span_attr a_colspan (fst td)) as [w|] eqn:W; [|discriminate].
      destruct (merge_cells tds p (c' + w)) as [zs|] eqn:M; [|discriminate]. intros [= <-]. destruct (flush_ok td tds _ _ _ _ _ F) as [A B].
      apply B. eapply fi_own; [exact A | apply spans_iff, W | apply IH, M].
    + intros H. destruct (flush_inv _ _ _ _ _ H) as (ys & p & c' & o & F & O & -> & NP). rewrite F.
      inversion O as [? ? ? ? ? ? ? ? ?|? ? ? w ? o' _ W O'| | |]; subst; [exfalso; eapply NP; reflexivity|].
      apply spans_iff in W. rewrite W. apply IH in O'. rewrite O'. reflexivity.
Qed.

Lemma kept_ok r l : kept r l (alst_insert l (column r) (snd (fst r)) (snd r)).
Proof.
  destruct r as [[c k] n]. unfold column. cbn [fst snd]. induction l as [|[[c' k'] n'] l IH]; cbn [alst_insert]; [apply ke_here; discriminate|].
  destruct (Z.ltb_spec c c'); [apply ke_here | apply ke_later; [unfold column; cbn; lia | exact IH]].
  intros x l' [= <- <-]. unfold column. cbn. assumption.
Qed.
Lemma kept_fun r l a b : kept r l a -> kept r l b -> a = b.
Proof.
  intros A. revert b. induction A as [l N|x l l' X A IH]; intros b B; inversion B; subst; try reflexivity.
  - specialize (N _ _ eq_refl). lia.
  - match goal with H : forall _ _, _ -> _ |- _ => specialize (H _ _ eq_refl) end. lia.
  - f_equal. apply IH. assumption.
Qed.
Lemma reach_iff tds : forall c l l', store_spans tds c l = Some l' <-> reach_down c tds l l'.
Proof.
  induction tds as [|td tds IH]; intros c l l'; cbn [store_spans].
  - split; [intros [= <-]; constructor | intros H; inversion H; reflexivity].
  - split.
    + destruct (span_attr a_rowspan (fst td)) as [h|] eqn:HH; [|discriminate]. destruct (span_attr a_colspan (fst td)) as [w|] eqn:W; [|discriminate].
      intros E. apply IH in E. apply spans_iff in HH, W. destruct (Z.ltb_spec 1 h).
      * eapply rd_more; try eassumption. apply (kept_ok (c, (del_attr a_rowspan (fst td), snd td), h)).
      * eapply rd_one; eassumption.
    + intros H; inversion H as [|? ? ? h w ? ? HH L W R|? ? ? h w ? l1 ? HH L K W R]; subst; apply spans_iff in HH, W; rewrite HH, W;
        apply IH in R; rewrite <- R; f_equal.
      * destruct (Z.ltb_spec 1 h); [lia | reflexivity].
      * destruct (Z.ltb_spec 1 h); [|lia]. exact (kept_fun _ _ _ _ (kept_ok (c, (del_attr a_rowspan (fst td), snd td), h) l) K).
Qed.
Lemma less_iff l l' : alst_count_decr l = l' <-> one_less l l'.
Proof.
  split.
  - intros <-. induction l as [|[[c k] n] l IH]; [constructor|]. cbn [alst_count_decr flat_map]. destruct (Z.ltb_spec 1 n); cbn [app].
    + apply ol_more; assumption.
    + apply ol_done; assumption.
  - induction 1 as [|c k n l l' N H IH|c k n l l' N H IH]; [reflexivity|..]; cbn [alst_count_decr flat_map]; fold (alst_count_decr l); rewrite IH.
    + destruct (Z.ltb_spec 1 n); [lia | reflexivity].
    + destruct (Z.ltb_spec 1 n); [reflexivity | lia].
Qed.
Definition rebuilt (l : alst) (y : yrow) : option yrow :=
  match l with
  | [] => Some y
  | _ => match sorted_row_children (y_row y) l with
         | Some ks => Some (mkY (Elem (e_tag (y_row y)) (e_attrs (y_row y)) [] ks) [])
         | None => None
         end
  end.
Lemma map_fst_alst (l : alst) : map (fun '(n, k, _) => (n, k)) l = map fst l.
Proof. apply map_ext. intros [[n k] c]. reflexivity. Qed.
Lemma shown_iff l y y' : rebuilt l y = Some y' <-> row_shown l y y'.
Proof.
  unfold rebuilt, row_shown, sorted_row_children. rewrite map_fst_alst. destruct l as [|x l].
  - split; [intros [= <-]; left; auto | intros [[_ ->]|[N _]]; [reflexivity | exfalso; apply N; reflexivity]].
  - split.
    + destruct (merge_cells _ _ _) as [ks|] eqn:M; [|discriminate]. intros [= <-]. right. split; [discriminate|]. exists ks.
      split; [apply filled_iff, M | reflexivity].
    + intros [[N _]|(_ & ks & F & ->)]; [discriminate|]. apply filled_iff in F. rewrite F. reflexivity.
Qed.
Lemma step_iff l y y' l' :
  match rebuilt l y with
  | Some z => match store_spans (kids_of t_td (y_row z)) 0 l with Some l1 => Some (z, alst_count_decr l1) | None => None end
  | None => None
  end = Some (y', l') <-> row_step l y y' l'.
Proof.
  unfold row_step. split.
  - destruct (rebuilt l y) as [z|] eqn:R; [|discriminate]. destruct (store_spans (kids_of t_td (y_row z)) 0 l) as [l1|] eqn:S; [|discriminate]. intros [= <- <-].
    exists l1. split; [apply shown_iff, R|]. split; [apply reach_iff, S | apply less_iff; reflexivity].
  - intros (l1 & R & S & L). apply shown_iff in R. apply reach_iff in S. apply less_iff in L. rewrite R, S, L. reflexivity.
Qed.
Lemma loop_step y rest l : row_loop (y :: rest) l =
  if contains_th (y_row y) then (y :: fst (row_loop rest l), snd (row_loop rest l))
  else match (match rebuilt l y with
              | Some z => match store_spans (kids_of t_td (y_row z)) 0 l with Some l1 => Some (z, alst_count_decr l1) | None => None end
              | None => None
              end) with
       | Some (y', l') => (y' :: fst (row_loop rest l'), snd (row_loop rest l'))
       | None => ([], Some EValueError)
       end.
Proof.
  cbn [row_loop]. destruct (contains_th (y_row y)); [destruct (row_loop rest l); reflexivity|]. fold (rebuilt l y).
  destruct (rebuilt l y) as [z|]; [|reflexivity]. destruct (store_spans _ 0 l) as [l1|]; [|reflexivity].
  destruct (row_loop rest (alst_count_decr l1)); reflexivity.
Qed.
Definition ended (e : option exn) : bool := match e with None => true | Some _ => false end.
Lemma loop_ok trs : forall l, rows_shown l trs (fst (row_loop trs l)) (ended (snd (row_loop trs l))).
Proof.
  induction trs as [|y trs IH]; intros l; [constructor|]. rewrite loop_step. destruct (contains_th (y_row y)) eqn:C.
  - apply rs_header; [intros E; apply has_th in E; congruence | apply IH].
  - apply has_th in C.
    destruct (match rebuilt l y with
              | Some z => match store_spans (kids_of t_td (y_row z)) 0 l with Some l1 => Some (z, alst_count_decr l1) | None => None end
              | None => None
              end) as [[y' l']|] eqn:E.
    + apply step_iff in E. eapply rs_row; [exact C | exact E | apply IH].
    + apply rs_fail; [exact C|]. intros y' l' S. apply step_iff in S. congruence.
Qed.
Lemma rows_shown_fun l trs a ok : rows_shown l trs a ok -> forall b ok', rows_shown l trs b ok' -> a = b /\ ok = ok'.
Proof.
  induction 1 as [l|l y rest ys ok T H IH|l y y' l' rest ys ok T ST H IH|l y rest T N]; intros b ok' B; inversion B; subst; try contradiction; auto;
    try (exfalso; congruence).
  - destruct (IH _ _ ltac:(eassumption)) as [-> ->]. auto.
  - match goal with A : row_step l y y' l', B : row_step l y ?z ?m |- _ => apply step_iff in A, B; rewrite A in B; injection B as <- <- end.
    destruct (IH _ _ ltac:(eassumption)) as [-> ->]. auto.
  - exfalso. match goal with A : forall _ _, ~ _ |- _ => eapply A; eassumption end.
  - exfalso. match goal with A : forall _ _, ~ _ |- _ => eapply A; eassumption end.
Qed.

(** The rows that are iterated over are those specified, and those only. *)
Lemma table_rows_ok tbl : table_rows tbl (fst (row_iter tbl)) (ended (snd (row_iter tbl))).
Proof. exists (select_rows (e_kids tbl)). split; [apply cell_rows_ok | apply loop_ok]. Qed.
Lemma table_rows_iff tbl ys ok : table_rows tbl ys ok <-> ys = fst (row_iter tbl) /\ ok = ended (snd (row_iter tbl)).
Proof.
  split; [|intros [-> ->]; apply table_rows_ok]. intros (trs & C & R). rewrite (cell_rows_fun _ _ _ C (cell_rows_ok _)) in R.
  exact (rows_shown_fun _ _ _ _ R _ _ (loop_ok _ _)).
Qed.
