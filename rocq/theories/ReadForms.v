(** The vocabulary of SpecReads.v in terms of the rows that are iterated over. *)
From Coq Require Import NArith ZArith List Bool String.
From Verif Require Import PyStr Xml Lint RowIter Helpers Extract Document
  SpecText SpecFields SpecHeader SpecRows SpecIter SpecTable SpecDoc SpecReads IterProofs.
Import ListNotations.
Local Open Scope list_scope.
Local Open Scope N_scope.

Lemma ends_form x tbl : comes_to_end x tbl <->
  snd (row_iter tbl) = None \/ exists y, In y (fst (row_iter tbl)) /\ data_row y /\ last_row x y.
Proof.
  unfold comes_to_end. split.
  - intros (rows & ok & T & H). apply table_rows_iff in T as [-> ->]. destruct H as [H|H]; [left | right; exact H].
    destruct (snd (row_iter tbl)); [discriminate | reflexivity].
  - intros H. exists (fst (row_iter tbl)), (ended (snd (row_iter tbl))). split; [apply table_rows_ok|].
    destruct H as [->|H]; [left; reflexivity | right; exact H].
Qed.
Lemma gives_form P x tbl b : table_gives P x tbl b <->
  match b with
  | BStruct k fields => ec_kind (x_cls x) = EKStruct k
      /\ exists fs, rows_give x false (fst (row_iter tbl)) fs /\ fields = match k with KBits => rev fs | KBytes => fs end
  | BValues fields => ec_kind (x_cls x) = EKValues /\ vrows_give (p_label_overrides P) x (fst (row_iter tbl)) fields
  end.
Proof.
  unfold table_gives. split.
  - intros (rows & ok & T & H). apply table_rows_iff in T as [-> ->]. exact H.
  - intros H. exists (fst (row_iter tbl)), (ended (snd (row_iter tbl))). split; [apply table_rows_ok | exact H].
Qed.
Lemma rows_at tbl l : fst (row_iter tbl) = l -> table_rows tbl l (ended (snd (row_iter tbl))).
Proof. intros <-. apply table_rows_ok. Qed.
Lemma rows_failed tbl e : snd (row_iter tbl) = Some e -> table_rows tbl (fst (row_iter tbl)) false.
Proof. intros E. apply table_rows_iff. rewrite E. split; reflexivity. Qed.
Lemma obstacle_row P x tbl a y b :
  fst (row_iter tbl) = a ++ y :: b -> (forall z, In z a -> data_row z -> ~ last_row x z) -> data_row y ->
  match ec_kind (x_cls x) with
  | EKStruct _ => row_fails x (lists_above a) y
  | EKValues => vrow_fails (p_label_overrides P) x y
  end -> obstacle P x tbl.
Proof. intros R. eapply ob_row, rows_at, R. Qed.
Lemma obstacle_spans P x tbl e :
  snd (row_iter tbl) = Some e -> (forall z, In z (fst (row_iter tbl)) -> data_row z -> ~ last_row x z) -> obstacle P x tbl.
Proof. intros R. eapply ob_spans, rows_failed, R. Qed.
(** What an obstacle is. *)
Inductive obstacle_form (P : parser) (x : xctx) (tbl : elem) : Prop :=
| of_row a y b :
    fst (row_iter tbl) = a ++ y :: b -> (forall z, In z a -> data_row z -> ~ last_row x z) -> data_row y ->
    match ec_kind (x_cls x) with
    | EKStruct _ => row_fails x (lists_above a) y
    | EKValues => vrow_fails (p_label_overrides P) x y
    end -> obstacle_form P x tbl
| of_spans e :
    snd (row_iter tbl) = Some e -> (forall z, In z (fst (row_iter tbl)) -> data_row z -> ~ last_row x z) ->
    obstacle_form P x tbl.
Lemma obstacle_iff P x tbl : obstacle P x tbl <-> obstacle_form P x tbl.
Proof.
  split.
  - intros [a y b ok T N D F|rows T N]; apply table_rows_iff in T as [T K].
    + eapply of_row; [symmetry; exact T | exact N | exact D | exact F].
    + subst rows. destruct (snd (row_iter tbl)) as [e|] eqn:E; [|discriminate]. eapply of_spans; [exact E | exact N].
  - intros [a y b R N D F|e E N]; [eapply obstacle_row | eapply obstacle_spans]; eassumption.
Qed.
Lemma nested_form x tbl n : nested_figure x tbl n <-> exists a b figs, fst (row_iter tbl) = a ++ b /\ table_figs x a figs /\ In n figs.
Proof.
  split.
  - intros (a & b & ok & figs & T & F & I). apply table_rows_iff in T as [T _]. exists a, b, figs. auto.
  - intros (a & b & figs & R & F & I). exists a, b, (ended (snd (row_iter tbl))), figs. split; [apply rows_at, R | auto].
Qed.
Lemma rows_failed_iff tbl rows : table_rows tbl rows false <-> rows = fst (row_iter tbl) /\ exists e, snd (row_iter tbl) = Some e.
Proof.
  rewrite table_rows_iff. split; intros [-> H]; (split; [reflexivity|]).
  - destruct (snd (row_iter tbl)) as [e|]; [eauto | discriminate].
  - destruct H as [e ->]. reflexivity.
Qed.
