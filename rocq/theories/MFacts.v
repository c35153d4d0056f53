(** Laws of the effect type of Lint.v. *)
From Coq Require Import NArith ZArith List Bool String Lia.
From Verif Require Import PyStr PyStrFacts Json Lint.
Import ListNotations.
Local Open Scope list_scope.
Local Open Scope N_scope.
Local Open Scope m_scope.

Lemma bind_ret {A B} (a : A) (k : A -> M B) f : bind (ret a) k f = k a f.
Proof. unfold bind, ret. destruct (k a f) as [[r f2] t2]. reflexivity. Qed.

Lemma bind_ret_r {A} (m : M A) f : bind m ret f = m f.
Proof.
  unfold bind, ret. destruct (m f) as [[[a|e|] f1] t1]; try reflexivity.
  rewrite app_nil_r. reflexivity.
Qed.

Lemma bind_assoc {A B C} (m : M A) (k : A -> M B) (h : B -> M C) f :
  bind (bind m k) h f = bind m (fun a => bind (k a) h) f.
Proof.
  unfold bind. destruct (m f) as [[[a|e|] f1] t1]; try reflexivity.
  destruct (k a f1) as [[[b|e|] f2] t2]; try reflexivity.
  destruct (h b f2) as [[r f3] t3]. rewrite app_assoc. reflexivity.
Qed.

Lemma bind_ext {A B} (m m' : M A) (k k' : A -> M B) f :
  m f = m' f -> (forall a g, k a g = k' a g) -> bind m k f = bind m' k' f.
Proof.
  intros H1 H2. unfold bind. rewrite H1. destruct (m' f) as [[[a|e|] f1] t1]; try reflexivity.
  rewrite H2. reflexivity.
Qed.

(** Equation form: how a bind goes on when the first part ended normally. *)
Lemma bind_ok {A B} (m : M A) (k : A -> M B) f a f1 t1 :
  m f = (Ok a, f1, t1) ->
  bind m k f = (fst (fst (k a f1)), snd (fst (k a f1)), t1 ++ snd (k a f1)).
Proof. intros H. unfold bind. rewrite H. destruct (k a f1) as [[r f2] t2]. reflexivity. Qed.

Lemma bind_exn {A B} (m : M A) (k : A -> M B) f e f1 t1 :
  m f = (Exn e, f1, t1) -> bind m k f = (Exn e, f1, t1).
Proof. intros H. unfold bind. rewrite H. reflexivity. Qed.

(** Inversion: a bind that ended normally. *)
Lemma bind_ok_inv {A B} (m : M A) (k : A -> M B) f b f2 t :
  bind m k f = (Ok b, f2, t) ->
  exists a f1 t1 t2, m f = (Ok a, f1, t1) /\ k a f1 = (Ok b, f2, t2) /\ t = t1 ++ t2.
Proof.
  unfold bind. destruct (m f) as [[[a|e|] f1] t1]; try discriminate.
  destruct (k a f1) as [[r g] t2] eqn:K. intros [= -> -> <-].
  exists a, f1, t1, t2. auto.
Qed.

Lemma bind_exn_inv {A B} (m : M A) (k : A -> M B) f e f2 t :
  bind m k f = (Exn e, f2, t) ->
  m f = (Exn e, f2, t)
  \/ exists a f1 t1 t2, m f = (Ok a, f1, t1) /\ k a f1 = (Exn e, f2, t2) /\ t = t1 ++ t2.
Proof.
  unfold bind. destruct (m f) as [[[a|e'|] f1] t1]; try discriminate.
  - destruct (k a f1) as [[r g] t2] eqn:K. intros [= -> -> <-]. right.
    exists a, f1, t1, t2. auto.
  - intros [= -> -> ->]. left. reflexivity.
Qed.

(** Computations that do not look at or change the unwinding flag. *)
Definition flagless {A} (m : M A) : Prop :=
  exists r t, forall f, m f = (r, f, t).

Lemma flagless_ret {A} (a : A) : flagless (ret a).
Proof. exists (Ok a), []. reflexivity. Qed.
Lemma flagless_throw {A} e : flagless (@throw A e).
Proof. exists (Exn e), []. reflexivity. Qed.
Lemma flagless_emit e : flagless (emit e).
Proof. exists (Ok tt), [e]. reflexivity. Qed.
Lemma flagless_bind {A B} (m : M A) (k : A -> M B) :
  flagless m -> (forall a, flagless (k a)) -> flagless (bind m k).
Proof.
  intros (r & t & H) Hk. destruct r as [a|e|].
  - destruct (Hk a) as (r2 & t2 & H2). exists r2, (t ++ t2). intros f.
    unfold bind. rewrite H, H2. reflexivity.
  - exists (Exn e), t. intros f. unfold bind. rewrite H. reflexivity.
  - exists OutOfFuel, t. intros f. unfold bind. rewrite H. reflexivity.
Qed.
Lemma flagless_if {A} (b : bool) (m m' : M A) : flagless m -> flagless m' -> flagless (if b then m else m').
Proof. destruct b; auto. Qed.
Lemma flagless_add_issue c fig row ctx : flagless (add_issue c fig row ctx).
Proof.
  unfold add_issue. destruct (seqb fig []); [apply flagless_throw|].
  destruct (_ && _); [apply flagless_throw | apply flagless_emit].
Qed.

(** add_issue on a named figure with the row its code requires. *)
Lemma add_issue_row c fig row ctx f :
  fig <> [] ->
  add_issue c fig (Some row) ctx f
  = (Ok tt, f, [EvLint (mkLint c fig (code_msg c) (Some row) ctx)]).
Proof.
  intros H. unfold add_issue. replace (seqb fig []) with false by (symmetry; apply seqb_neq; exact H).
  rewrite andb_false_r. reflexivity.
Qed.

Lemma add_issue_tbl c fig row ctx f :
  fig <> [] -> needs_row c = false ->
  add_issue c fig row ctx f
  = (Ok tt, f, [EvLint (mkLint c fig (code_msg c) row ctx)]).
Proof.
  intros H Hc. unfold add_issue. replace (seqb fig []) with false by (symmetry; apply seqb_neq; exact H).
  rewrite Hc. reflexivity.
Qed.

(** Trace projections. *)
Lemma lints_of_app a b : lints_of (a ++ b) = lints_of a ++ lints_of b.
Proof. apply flat_map_app. Qed.
Lemma ents_of_app a b : ents_of (a ++ b) = ents_of a ++ ents_of b.
Proof. apply flat_map_app. Qed.

Lemma In_lints_of l t : In l (lints_of t) <-> In (EvLint l) t.
Proof.
  unfold lints_of. rewrite in_flat_map. split.
  - intros ([l'|e] & H & H'); cbn in H'; [|tauto]. destruct H' as [->|[]]. exact H.
  - intros H. exists (EvLint l). split; [exact H | left; reflexivity].
Qed.
Lemma In_ents_of l t : In l (ents_of t) <-> In (EvEnt l) t.
Proof.
  unfold ents_of. rewrite in_flat_map. split.
  - intros ([l'|e] & H & H'); cbn in H'; [tauto|]. destruct H' as [->|[]]. exact H.
  - intros H. exists (EvEnt l). split; [exact H | left; reflexivity].
Qed.
