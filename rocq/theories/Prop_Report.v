(** Properties of the report page (C58, C70). *)
From Coq Require Import NArith ZArith List Bool String Lia Sorted Permutation ZifyBool ZifyN ZifyNat.
From Verif Require Import PyStr PyStrFacts Xml Json Lint Extract Document Output SpecText SpecCli SpecOutput RangeProofs
  Prop_Table Prop_Doc Prop_Output Server SpecServer ServerProofs Prop_Server Report SpecReport.
Import ListNotations.
Local Open Scope list_scope.
Local Open Scope N_scope.

(** ** Sorting *)

Lemma insert_perm {A} (before : A -> A -> bool) x l : Permutation (insert_by before x l) (x :: l).
Proof.
  induction l as [|y l IH]; cbn [insert_by]; [apply Permutation_refl|]. destruct (before x y); [apply Permutation_refl|].
  rewrite IH. apply perm_swap.
Qed.
Lemma sort_perm {A} (before : A -> A -> bool) l : Permutation (sort_by before l) l.
Proof.
  induction l as [|x l IH]; cbn [sort_by fold_right]; [apply Permutation_refl|].
  rewrite insert_perm. apply perm_skip. exact IH.
Qed.
Lemma insert_sorted {A} (f : A -> N) x l :
  StronglySorted (fun a b => f b <= f a) l -> StronglySorted (fun a b => f b <= f a) (insert_by (fun a b => f b <=? f a) x l).
Proof.
  induction 1 as [|y l SS IH FA]; cbn [insert_by]; [constructor; constructor|].
  destruct (N.leb_spec (f y) (f x)) as [L|G].
  - constructor; [constructor; assumption|]. constructor; [exact L|].
    rewrite Forall_forall in FA |- *. intros z Z. specialize (FA z Z). lia.
  - constructor; [exact IH|]. apply (Permutation_Forall (Permutation_sym (insert_perm _ x l))). constructor; [lia|exact FA].
Qed.
Lemma sort_sorted {A} (f : A -> N) l : StronglySorted (fun a b => f b <= f a) (sort_by (fun a b => f b <=? f a) l).
Proof. induction l as [|x l IH]; cbn [sort_by fold_right]; [constructor|]. apply insert_sorted. exact IH. Qed.
Lemma filter_split_perm {A} (p q : A -> bool) l : (forall x, q x = negb (p x)) -> Permutation (filter p l ++ filter q l) l.
Proof.
  intros Q. induction l as [|x l IH]; [apply Permutation_refl|]. cbn [filter]. rewrite Q. destruct (p x); cbn [negb app].
  - apply perm_skip. exact IH.
  - rewrite <- Permutation_middle. apply perm_skip. exact IH.
Qed.
Lemma entries_perm {A} (o : jsobj A) : Permutation (entries_order o) o.
Proof.
  unfold entries_order. rewrite sort_perm. apply filter_split_perm. intros [k v]. cbn. destruct (array_index k); reflexivity.
Qed.

(** ** Objects *)

Lemma own_set {A} k (v : A) k' o : own k' (js_set k v o) = if seqb k k' then Some v else own k' o.
Proof.
  unfold own. induction o as [|[a b] o IH]; cbn [js_set find fst].
  - destruct (seqb k k'); reflexivity.
  - destruct (seqb_spec a k) as [->|Ne]; cbn [find fst].
    + destruct (seqb k k'); reflexivity.
    + destruct (seqb_spec a k') as [->|Ne'].
      * destruct (seqb_spec k k') as [->|_]; [contradiction|reflexivity].
      * exact IH.
Qed.
Lemma own_In {A} k (v : A) o : own k o = Some v -> In (k, v) o.
Proof.
  unfold own. destruct (find _ o) as [[a b]|] eqn:E; [|discriminate]. intros [= ->].
  apply find_some in E as [E Q]. apply seqb_eq in Q. cbn in Q. subst a. exact E.
Qed.
Lemma own_None {A} k (o : jsobj A) : own k o = None <-> ~ In k (map fst o).
Proof.
  unfold own. destruct (find _ o) as [[a b]|] eqn:E.
  - split; [discriminate|]. intros N. exfalso. apply N. apply find_some in E as [E Q]. apply seqb_eq in Q. cbn in Q. subst a.
    apply in_map_iff. exists (k, b). auto.
  - split; [|reflexivity]. intros _ X. apply in_map_iff in X as ([a b] & Q & X). cbn in Q. subst a.
    pose proof (find_none _ _ E _ X) as Y. cbn in Y. rewrite seqb_refl in Y. discriminate.
Qed.
Lemma own_iff {A} k (v : A) o : NoDup (map fst o) -> (own k o = Some v <-> In (k, v) o).
Proof.
  intros ND. split; [apply own_In|]. intros X. unfold own.
  induction o as [|[a b] o IH]; [destruct X|]. cbn [find fst]. cbn [map] in ND. apply NoDup_cons_iff in ND as [N ND].
  destruct X as [[= -> ->]|X]; [rewrite seqb_refl; reflexivity|].
  destruct (seqb_spec a k) as [->|_]; [|exact (IH ND X)]. exfalso. apply N. apply in_map_iff. exists (k, v). auto.
Qed.
Lemma set_keys {A} k (v : A) o x : In x (map fst (js_set k v o)) <-> x = k \/ In x (map fst o).
Proof.
  induction o as [|[a b] o IH]; cbn [js_set map fst].
  - cbn. intuition.
  - destruct (seqb_spec a k) as [->|Ne]; cbn [map fst In].
    + split; intros [X|X]; auto.
    + rewrite IH. tauto.
Qed.
Lemma set_nodup {A} k (v : A) o : NoDup (map fst o) -> NoDup (map fst (js_set k v o)).
Proof.
  induction o as [|[a b] o IH]; cbn [js_set map fst]; intros ND; [constructor; [auto|constructor]|].
  apply NoDup_cons_iff in ND as [N ND]. destruct (seqb_spec a k) as [->|Ne]; cbn [map fst]; (constructor; [|auto]).
  - exact N.
  - rewrite set_keys. intuition.
Qed.

(** ** The rows of the summary *)

Definition code_row (lint : list entry) (c : str) : option row :=
  match find (fun e => seqb (le_code e) c) lint with
  | Some e => Some (mkRow c (le_msg e) (occurrences c lint))
  | None => None
  end.

Lemma occurrences_snoc c l e : occurrences c (l ++ [e]) = occurrences c l + if seqb (le_code e) c then 1 else 0.
Proof.
  unfold occurrences. rewrite map_app, count_occ_app. cbn [map count_occ].
  destruct (str_eq_dec (le_code e) c) as [->|Ne]; [rewrite seqb_refl|rewrite (proj2 (seqb_neq _ _) Ne)]; lia.
Qed.
Lemma find_app {A} (p : A -> bool) a b : find p (a ++ b) = match find p a with Some x => Some x | None => find p b end.
Proof. induction a as [|x a IH]; [reflexivity|]. cbn. destruct (p x); [reflexivity|exact IH]. Qed.
Lemma find_none_occ c l : find (fun e => seqb (le_code e) c) l = None -> occurrences c l = 0.
Proof.
  intros F. unfold occurrences. replace (count_occ _ _ _) with O; [reflexivity|]. symmetry. apply count_occ_not_In.
  intros X. apply in_map_iff in X as (e & <- & X). pose proof (find_none _ _ F _ X) as Y. cbn in Y. rewrite seqb_refl in Y. discriminate.
Qed.

Lemma group_inv lint : plain_codes lint ->
  NoDup (map fst (fold_left group_code lint [])) /\ (forall c, own c (fold_left group_code lint []) = code_row lint c)
  /\ fold_right (fun p n => w_amount (snd p) + n) 0 (fold_left group_code lint []) = N.of_nat (List.length lint).
Proof.
  induction lint as [|e l IH] using rev_ind; intros PC.
  - split; [constructor|]. split; reflexivity.
  - apply Forall_app in PC as [PC PE]. apply Forall_cons_iff in PE as [[NE NI] _]. destruct (IH PC) as (ND & OW & SU).
    rewrite fold_left_app. cbn [fold_left]. set (acc := fold_left group_code l []) in *.
    assert (SM : smem (le_code e) inherited = false) by (apply smem_not_In; exact NI).
    unfold group_code. rewrite (OW (le_code e)), SM. unfold code_row.
    assert (SUM : forall k (v : row) (o : jsobj row), fold_right (fun p n => w_amount (snd p) + n) 0 (js_set k v o)
         + match own k o with Some r => w_amount r | None => 0 end
       = fold_right (fun p n => w_amount (snd p) + n) 0 o + w_amount v).
    { clear. intros k v o. induction o as [|[a b] o IH]; cbn [js_set fold_right snd].
      - cbn. lia.
      - unfold own. cbn [find fst]. destruct (seqb_spec a k) as [->|_]; cbn [fold_right snd]; [lia|].
        fold (own k o). lia. }
    destruct (find (fun e0 => seqb (le_code e0) (le_code e)) l) as [e0|] eqn:F.
    + cbn [w_code w_msg w_amount]. split; [apply set_nodup; exact ND|]. split.
      * intros c. rewrite own_set, find_app. destruct (seqb_spec (le_code e) c) as [<-|Ne].
        -- rewrite F, occurrences_snoc, seqb_refl. reflexivity.
        -- rewrite OW. unfold code_row. destruct (find (fun e0 => seqb (le_code e0) c) l).
           ++ rewrite occurrences_snoc, (proj2 (seqb_neq _ _) Ne), N.add_0_r. reflexivity.
           ++ cbn [find]. rewrite (proj2 (seqb_neq _ _) Ne). reflexivity.
      * match goal with |- context [js_set ?k ?v acc] => specialize (SUM k v acc) end. rewrite OW in SUM. unfold code_row in SUM.
        rewrite F, SU in SUM. cbn [w_amount] in SUM. rewrite app_length. cbn [List.length]. lia.
    + cbn [w_code w_msg w_amount]. split; [apply set_nodup; exact ND|]. split.
      * intros c. rewrite own_set, find_app. destruct (seqb_spec (le_code e) c) as [<-|Ne].
        -- rewrite F. cbn [find]. rewrite seqb_refl, occurrences_snoc, seqb_refl, (find_none_occ _ _ F). reflexivity.
        -- rewrite OW. unfold code_row. destruct (find (fun e0 => seqb (le_code e0) c) l).
           ++ rewrite occurrences_snoc, (proj2 (seqb_neq _ _) Ne), N.add_0_r. reflexivity.
           ++ cbn [find]. rewrite (proj2 (seqb_neq _ _) Ne). reflexivity.
      * match goal with |- context [js_set ?k ?v acc] => specialize (SUM k v acc) end. rewrite OW in SUM. unfold code_row in SUM.
        rewrite F, SU in SUM. cbn [w_amount] in SUM. rewrite app_length. cbn [List.length]. lia.
Qed.

Lemma rows_perm lint : Permutation (lint_group_by_code lint) (map snd (fold_left group_code lint [])).
Proof. unfold lint_group_by_code. rewrite sort_perm. apply Permutation_map, entries_perm. Qed.

Lemma rows_In lint r : plain_codes lint -> (In r (lint_group_by_code lint) <-> code_row lint (w_code r) = Some r).
Proof.
  intros PC. destruct (group_inv lint PC) as (ND & OW & _). split.
  - intros X. apply (Permutation_in _ (rows_perm lint)) in X. apply in_map_iff in X as ([k r'] & Q & X). cbn in Q. subst r'.
    apply (own_iff _ _ _ ND) in X. rewrite OW in X. assert (w_code r = k) as ->; [|exact X].
    unfold code_row in X. destruct (find _ lint); [|discriminate]. injection X as <-. reflexivity.
  - intros X. apply (Permutation_in _ (Permutation_sym (rows_perm lint))). apply in_map_iff. exists (w_code r, r).
    split; [reflexivity|]. apply (own_iff _ _ _ ND). rewrite OW. exact X.
Qed.

Lemma rows_codes lint : plain_codes lint -> NoDup (map w_code (lint_group_by_code lint)).
Proof.
  intros PC. destruct (group_inv lint PC) as (ND & OW & _).
  apply (Permutation_NoDup (Permutation_map w_code (Permutation_sym (rows_perm lint)))).
  replace (map w_code (map snd (fold_left group_code lint []))) with (map fst (fold_left group_code lint [])); [exact ND|].
  rewrite map_map. apply map_ext_in. intros [k r] X. cbn. apply (own_iff _ _ _ ND) in X. rewrite OW in X.
  unfold code_row in X. destruct (find _ lint); [|discriminate]. injection X as <-. reflexivity.
Qed.

Lemma code_row_first lint c r : code_row lint c = Some r <->
  w_code r = c /\ w_amount r = occurrences c lint /\ first_message c (w_msg r) lint.
Proof.
  unfold code_row. split.
  - destruct (find _ lint) as [e|] eqn:F; [|discriminate]. intros [= <-]. cbn. split; [reflexivity|]. split; [reflexivity|].
    clear -F. induction lint as [|a l IH]; [discriminate|]. cbn [find] in F. destruct (seqb_spec (le_code a) c) as [E|Ne].
    + injection F as ->. exists [], e, l. auto.
    + destruct (IH F) as (A & x & B & -> & X1 & X2 & X3). exists (a :: A), x, B. auto.
  - destruct r as [c' m n]. cbn. intros (-> & -> & A & e & B & -> & E & <- & FA).
    rewrite find_app. replace (find _ A) with (@None entry).
    + cbn [find]. rewrite E, seqb_refl. reflexivity.
    + symmetry. clear -FA. induction FA as [|a A Ne FA IH]; [reflexivity|]. cbn [find].
      rewrite (proj2 (seqb_neq _ _) Ne). exact IH.
Qed.

(** ** C58 *)

(** The summary has one row for each code that occurs, with the number of entries with that
    code and the message of the first, in descending order of these numbers. *)
Theorem C58_rows lint : plain_codes lint ->
  NoDup (map w_code (lint_group_by_code lint))
  /\ (forall c, In c (map w_code (lint_group_by_code lint)) <-> exists e, In e lint /\ le_code e = c)
  /\ Forall (fun r => w_amount r = occurrences (w_code r) lint /\ first_message (w_code r) (w_msg r) lint) (lint_group_by_code lint)
  /\ StronglySorted (fun a b => w_amount b <= w_amount a) (lint_group_by_code lint).
Proof.
  intros PC. split; [apply rows_codes; exact PC|]. split; [|split].
  - intros c. split.
    + intros X. apply in_map_iff in X as (r & <- & X). apply (rows_In lint r PC) in X. unfold code_row in X.
      destruct (find _ lint) as [e|] eqn:F; [|discriminate]. apply find_some in F as [F Q]. apply seqb_eq in Q. exists e. auto.
    + intros (e & X & <-). destruct (code_row lint (le_code e)) as [r|] eqn:C.
      * apply in_map_iff. exists r. assert (W : w_code r = le_code e) by (apply code_row_first in C; apply C).
        split; [exact W|]. apply (rows_In lint r PC). rewrite W. exact C.
      * unfold code_row in C. destruct (find _ lint) eqn:F; [discriminate|]. pose proof (find_none _ _ F _ X) as Y.
        cbn in Y. rewrite seqb_refl in Y. discriminate.
  - apply Forall_forall. intros r X. apply (rows_In lint r PC), code_row_first in X. apply X.
  - apply sort_sorted.
Qed.

(** The number shown for all errors is the number of entries. *)
Theorem C58_sum lint : plain_codes lint -> error_sum lint = N.of_nat (List.length lint).
Proof.
  intros PC. destruct (group_inv lint PC) as (_ & _ & SU). rewrite <- SU. unfold error_sum.
  assert (G : forall l n, fold_left (fun n r => n + w_amount r) l n = n + fold_right (fun r n => w_amount r + n) 0 l).
  { induction l as [|r l IH]; intros n; cbn; [lia|]. rewrite IH. lia. }
  rewrite G, N.add_0_l.
  assert (P : forall a b : list row, Permutation a b -> fold_right (fun r n => w_amount r + n) 0 a = fold_right (fun r n => w_amount r + n) 0 b).
  { induction 1; cbn; lia. }
  rewrite (P _ _ (rows_perm lint)). clear. induction (fold_left group_code lint []) as [|p l IH]; [reflexivity|]. cbn. rewrite IH. reflexivity.
Qed.

(** ** Selecting rows *)

Lemma on_click_rows rs c : map fst (on_click rs c) = map fst rs.
Proof.
  destruct c as [code|]; cbn [on_click].
  - induction rs as [|[r b] l IH]; [reflexivity|]. cbn [toggle]. destruct (seqb _ _); cbn; [reflexivity|]. f_equal. exact IH.
  - unfold clear. rewrite map_map. reflexivity.
Qed.
Lemma after_rows lint cs : map fst (after_clicks lint cs) = lint_group_by_code lint.
Proof.
  unfold after_clicks. assert (G : forall cs rs, map fst (fold_left on_click cs rs) = map fst rs).
  { intros l. induction l as [|c l IH]; intros rs; [reflexivity|]. cbn. rewrite IH. apply on_click_rows. }
  rewrite G. unfold summary_init. rewrite map_map. apply map_id.
Qed.

(** Is the code selected after these clicks? *)
Fixpoint sel (c : str) (cs : list click) (b : bool) : bool :=
  match cs with
  | [] => b
  | ClickRow c' :: r => sel c r (if str_eq_dec c' c then negb b else b)
  | ClickClear :: r => sel c r false
  end.

Lemma after_sel cs : forall rs, NoDup (map (fun p => w_code (fst p)) rs) ->
  fold_left on_click cs rs = map (fun p => (fst p, sel (w_code (fst p)) cs (snd p))) rs.
Proof.
  induction cs as [|c cs IH]; intros rs ND; cbn [fold_left sel].
  - rewrite <- (map_id rs) at 1. apply map_ext. intros [r b]. reflexivity.
  - assert (K : map (fun p => w_code (fst p)) (on_click rs c) = map (fun p => w_code (fst p)) rs).
    { rewrite <- (map_map fst w_code), on_click_rows, map_map. reflexivity. }
    rewrite IH by (rewrite K; exact ND). clear IH K. destruct c as [code|]; cbn [on_click].
    + induction rs as [|[r b] l IH]; [reflexivity|]. cbn [toggle map fst snd] in *. apply NoDup_cons_iff in ND as [N ND].
      destruct (seqb_spec (w_code r) code) as [<-|Ne]; cbn [map fst snd].
      * destruct (str_eq_dec (w_code r) (w_code r)) as [_|]; [|contradiction]. f_equal.
        apply map_ext_in. intros [r' b'] X. cbn. destruct (str_eq_dec (w_code r) (w_code r')) as [E|_]; [|reflexivity].
        exfalso. apply N. apply in_map_iff. exists (r', b'). auto.
      * destruct (str_eq_dec code (w_code r)) as [E|_]; [congruence|]. f_equal. exact (IH ND).
    + unfold clear. rewrite map_map. apply map_ext. intros [r b]. reflexivity.
Qed.

Lemma sel_last c cs : forall b, ~ In ClickClear cs -> sel c cs b = xorb b (Nat.odd (clicks_on c cs)).
Proof.
  induction cs as [|k cs IH]; intros b N; cbn [sel clicks_on]; [destruct b; reflexivity|].
  assert (N' : ~ In ClickClear cs) by (intros X; apply N; right; exact X).
  destruct k as [c'|]; [|destruct N; left; reflexivity]. destruct (str_eq_dec c' c); rewrite IH by exact N'; [|reflexivity].
  rewrite Nat.odd_succ, <- Nat.negb_odd. destruct b, (Nat.odd _); reflexivity.
Qed.
Lemma split_last_clear cs : exists before since, cs = before ++ since /\ ~ In ClickClear since
  /\ (before = [] \/ exists b, before = b ++ [ClickClear]).
Proof.
  induction cs as [|k cs (b & s & -> & N & B)] using rev_ind.
  - exists [], []. cbn. auto.
  - destruct k as [c|].
    + exists b, (s ++ [ClickRow c]). rewrite <- app_assoc. split; [reflexivity|]. split; [|exact B].
      intros X. apply in_app_or in X as [X|[X|[]]]; [auto|discriminate].
    + exists ((b ++ s) ++ [ClickClear]), []. rewrite app_nil_r. split; [reflexivity|]. split; [auto|]. right. eauto.
Qed.
Lemma sel_app c a : forall b s, sel c (a ++ b) s = sel c b (sel c a s).
Proof. induction a as [|[x|] a IH]; intros b s; cbn [app sel]; auto. Qed.
Lemma sel_split c before since : ~ In ClickClear since -> (before = [] \/ exists b, before = b ++ [ClickClear]) ->
  sel c (before ++ since) false = Nat.odd (clicks_on c since).
Proof.
  intros N B. rewrite sel_app, sel_last by exact N. assert (sel c before false = false) as ->.
  { destruct B as [->|(b & ->)]; [reflexivity|]. rewrite sel_app. reflexivity. }
  apply xorb_false_l.
Qed.
Lemma sel_chosen c cs : sel c cs false = true <-> chosen c cs.
Proof.
  split.
  - intros E. destruct (split_last_clear cs) as (b & s & -> & N & B). exists b, s. repeat (split; [assumption || reflexivity|]).
    rewrite sel_split in E by assumption. apply Nat.odd_spec. exact E.
  - intros (b & s & -> & N & B & O). rewrite sel_split by assumption. apply Nat.odd_spec. exact O.
Qed.

(** A row is marked exactly if it was clicked an odd number of times since the last "Clear all
    filters"; the rows themselves never change. *)
Theorem C58_selected lint cs : plain_codes lint ->
  map fst (after_clicks lint cs) = lint_group_by_code lint
  /\ forall r b, In (r, b) (after_clicks lint cs) -> (b = true <-> chosen (w_code r) cs).
Proof.
  intros PC. split; [apply after_rows|]. intros r b X. unfold after_clicks in X. rewrite after_sel in X.
  - apply in_map_iff in X as ([r' b'] & Q & X). injection Q as -> <-. unfold summary_init in X.
    apply in_map_iff in X as (r0 & Q & _). injection Q as -> <-. apply sel_chosen.
  - unfold summary_init. rewrite map_map. cbn. apply rows_codes. exact PC.
Qed.

(** ** The figures *)

Lemma filter_codes_In lint cs c : plain_codes lint ->
  (In c (filter_codes (after_clicks lint cs)) <-> (exists e, In e lint /\ le_code e = c) /\ chosen c cs).
Proof.
  intros PC. unfold filter_codes. rewrite in_map_iff. destruct (C58_selected lint cs PC) as [AR SE]. split.
  - intros ([r b] & <- & X). apply filter_In in X as [X B]. cbn in B. subst b. split.
    + apply (C58_rows lint PC). rewrite <- AR. apply in_map_iff. exists r. split; [reflexivity|].
      apply in_map_iff. exists (r, true). auto.
    + apply (SE _ _ X). reflexivity.
  - intros [E CH]. apply (C58_rows lint PC) in E. rewrite <- AR in E. apply in_map_iff in E as (r & <- & E).
    apply in_map_iff in E as ([r' b] & Q & E). cbn in Q. subst r'. exists (r, b). split; [reflexivity|].
    apply filter_In. split; [exact E|]. cbn. apply (SE _ _ E). exact CH.
Qed.

Lemma those_filter {A} (Q : A -> Prop) (p : A -> bool) l : (forall a, In a l -> (p a = true <-> Q a)) -> those Q l (filter p l).
Proof.
  induction l as [|a l IH]; intros H; [constructor|]. cbn [filter].
  assert (IH' : those Q l (filter p l)) by (apply IH; intros b X; apply H; right; exact X).
  pose proof (H a (or_introl eq_refl)) as Ha. destruct (p a).
  - apply those_keep; [apply Ha; reflexivity|exact IH'].
  - apply those_drop; [intros X; apply Ha in X; discriminate|exact IH'].
Qed.

Lemma filtered_those lint cs : plain_codes lint -> those (to_show lint cs) lint (filtered (after_clicks lint cs) lint).
Proof.
  intros PC. unfold filtered. destruct (filter_codes (after_clicks lint cs)) as [|c0 l] eqn:F.
  - assert (A : forall e, In e lint -> to_show lint cs e).
    { intros e X. right. intros e' X' CH. assert (Y : In (le_code e') (filter_codes (after_clicks lint cs)))
        by (apply (filter_codes_In lint cs _ PC); eauto). rewrite F in Y. destruct Y. }
    revert A. generalize (to_show lint cs). clear. intros Q A. induction lint as [|e l IH]; [constructor|].
    apply those_keep; [apply A; left; reflexivity|]. apply IH. intros x X. apply A. right. exact X.
  - rewrite <- F. apply those_filter. intros e X.
    assert (NE : exists e', In e' lint /\ chosen (le_code e') cs).
    { assert (Y : In c0 (filter_codes (after_clicks lint cs))) by (rewrite F; left; reflexivity).
      apply (filter_codes_In lint cs _ PC) in Y as ((e' & Y & <-) & Z). eauto. }
    assert (EQ : to_show lint cs e <-> In (le_code e) (filter_codes (after_clicks lint cs))).
    { rewrite (filter_codes_In lint cs _ PC). split.
      - intros [CH|NO]; [eauto|]. destruct NE as (e' & Y & Z). destruct (NO e' Y Z).
      - intros [_ CH]. left. exact CH. }
    rewrite EQ. pose proof (proj1 (Forall_forall _ _) PC e X) as [N0 _].
    destruct (find _ _) as [c|] eqn:FF.
    + apply find_some in FF as [FF Q]. apply seqb_eq in Q. subst c. destruct (le_code e); [contradiction|]. split; auto.
    + split; [discriminate|]. intros Y. pose proof (find_none _ _ FF _ Y) as Z. cbn in Z. rewrite seqb_refl in Z. discriminate.
Qed.

Definition of_fig (f : str) (l : list entry) : list entry := filter (fun e => seqb (le_fig e) f) l.
Lemma of_fig_app f a b : of_fig f (a ++ b) = of_fig f a ++ of_fig f b.
Proof. apply filter_app. Qed.

Lemma group_fig_inv lint : plain_figures lint -> forall seen acc,
  NoDup (map fst acc) -> (forall f, own f acc = match of_fig f seen with [] => None | l => Some l end) ->
  exists o, group_fig acc lint = Some o /\ NoDup (map fst o)
    /\ forall f, own f o = match of_fig f (seen ++ lint) with [] => None | l => Some l end.
Proof.
  intros PF. induction PF as [|e l NI PF IH]; intros seen acc ND OW; cbn [group_fig].
  - exists acc. rewrite app_nil_r. auto.
  - assert (SM : smem (le_fig e) inherited = false) by (apply smem_not_In; exact NI). rewrite (OW (le_fig e)), SM.
    assert (G : exists v, match (match of_fig (le_fig e) seen with [] => None | l => Some l end) with
        | Some l0 => group_fig (js_set (le_fig e) (l0 ++ [e]) acc) l
        | None => group_fig (js_set (le_fig e) [e] acc) l end = group_fig (js_set (le_fig e) v acc) l
        /\ v = of_fig (le_fig e) (seen ++ [e]) /\ v <> []).
    { rewrite of_fig_app. unfold of_fig at 3. cbn [filter]. rewrite seqb_refl. destruct (of_fig (le_fig e) seen) as [|x y].
      - exists [e]. repeat split. discriminate.
      - eexists. split; [reflexivity|]. split; [reflexivity|]. discriminate. }
    destruct G as (v & -> & V & VN). replace (seen ++ e :: l) with ((seen ++ [e]) ++ l) by (rewrite <- app_assoc; reflexivity).
    apply IH; [apply set_nodup; exact ND|]. intros f. rewrite own_set. destruct (seqb_spec (le_fig e) f) as [<-|Ne].
    + rewrite <- V. destruct v; [contradiction|reflexivity].
    + rewrite OW, of_fig_app. unfold of_fig at 3. cbn [filter]. rewrite (proj2 (seqb_neq _ _) Ne), app_nil_r. reflexivity.
Qed.

(** The page shows the figures that have entries to show, each figure once with exactly these
    entries in the order of the document. *)
Theorem C58_figures lint cs : plain_codes lint -> plain_figures lint ->
  exists o, figures_shown (after_clicks lint cs) lint = Some o
    /\ NoDup (map fst o)
    /\ (forall e, In e lint -> to_show lint cs e -> In (le_fig e) (map fst o))
    /\ forall f es, In (f, es) o -> es <> [] /\ those (fun e => le_fig e = f /\ to_show lint cs e) lint es.
Proof.
  intros PC PF. pose proof (filtered_those lint cs PC) as FT. unfold figures_shown.
  set (l := filtered (after_clicks lint cs) lint) in *.
  assert (IN : forall e, In e l <-> In e lint /\ to_show lint cs e).
  { clear - FT. intros e. revert FT. generalize (to_show lint cs). intros P FT. induction FT as [|a m m' Q T IH|a m m' Q T IH].
    - split; [intros []|intros [[] _]].
    - cbn [In]. rewrite IH. split.
      + intros [<-|[A B]]; auto.
      + intros [[<-|A] B]; auto.
    - cbn [In]. rewrite IH. split.
      + intros [A B]; auto.
      + intros [[<-|A] B]; [contradiction|auto]. }
  assert (PF' : plain_figures l).
  { apply Forall_forall. intros e X. apply IN in X as [X _]. exact (proj1 (Forall_forall _ _) PF e X). }
  destruct (group_fig_inv l PF' [] [] (NoDup_nil _) (fun f => eq_refl)) as (o & -> & ND & OW). cbn [app] in OW.
  set (keep := fun p : str * list entry => match snd p with [] => false | _ :: _ => true end).
  exists (filter keep (entries_order o)). split; [reflexivity|].
  assert (ND' : NoDup (map fst (entries_order o))) by (apply (Permutation_NoDup (Permutation_map fst (Permutation_sym (entries_perm o)))); exact ND).
  assert (KI : forall f es, In (f, es) (filter keep (entries_order o)) <-> es = of_fig f l /\ es <> []).
  { intros f es. rewrite filter_In. assert (X : In (f, es) (entries_order o) <-> In (f, es) o)
      by (split; apply Permutation_in; [|symmetry]; apply entries_perm).
    rewrite X, <- (own_iff f es o ND), OW. unfold keep. cbn [snd]. destruct (of_fig f l) as [|x y]; destruct es; split;
      try (intros [A B]); try discriminate; try congruence; try (split; congruence). }
  split; [|split].
  - clear - ND'. induction (entries_order o) as [|p m IH]; [constructor|]. cbn [filter map] in *. apply NoDup_cons_iff in ND' as [N ND'].
    destruct (keep p); [|exact (IH ND')]. cbn [map]. constructor; [|exact (IH ND')]. intros X. apply N.
    apply in_map_iff in X as (q & Q & X). apply filter_In in X as [X _]. apply in_map_iff. eauto.
  - intros e X TS. apply in_map_iff. exists (le_fig e, of_fig (le_fig e) l). split; [reflexivity|]. apply KI. split; [reflexivity|].
    assert (Y : In e (of_fig (le_fig e) l)) by (apply filter_In; split; [apply IN; auto|apply seqb_refl]).
    intros Z. rewrite Z in Y. destruct Y.
  - intros f es X. apply KI in X as [-> NE]. split; [exact NE|]. clear - FT. revert FT. generalize (to_show lint cs). intros P FT.
    induction FT as [|a m m' Q T IH|a m m' Q T IH]; [constructor| |].
    + unfold of_fig. cbn [filter]. destruct (seqb_spec (le_fig a) f) as [E|Ne].
      * apply those_keep; [auto|exact IH].
      * apply those_drop; [tauto|exact IH].
    + apply those_drop; [tauto|exact IH].
Qed.

(** The entries of a report made by processing a document all have codes of the program, so
    that the summary of every report is right. *)
Lemma map_entry ls : all_some (map entry_of (map lint_json ls))
  = Some (map (fun l => mkEntry (code_name (l_code l)) (l_msg l) (l_fig l) (lint_json l)) ls).
Proof.
  induction ls as [|l ls IH]; [reflexivity|]. cbn [map all_some]. rewrite IH.
  assert (E : entry_of (lint_json l) = Some (mkEntry (code_name (l_code l)) (l_msg l) (l_fig l) (lint_json l))).
  { unfold lint_json at 1. unfold entry_of. cbn [app]. unfold jstr, jget. cbn [find fst].
    change (seqb (utf8 "code") (utf8 "code")) with true. change (seqb (utf8 "code") (utf8 "msg")) with false.
    change (seqb (utf8 "msg") (utf8 "msg")) with true. change (seqb (utf8 "code") (utf8 "fig")) with false.
    change (seqb (utf8 "msg") (utf8 "fig")) with false. change (seqb (utf8 "fig") (utf8 "fig")) with true. reflexivity. }
  rewrite E. reflexivity.
Qed.
Theorem C58_report version decode u d : succeeds version decode u d ->
  exists ls lint, meta_value d "lint" = Some (JList (map lint_json ls)) /\ report_lint d = Some lint /\ plain_codes lint
    /\ map le_code lint = map (fun l => code_name (l_code l)) ls /\ map le_fig lint = map l_fig ls
    /\ error_sum lint = N.of_nat (List.length ls).
Proof.
  intros SU. destruct (succeeds_lint version decode u d SU) as (ls & LS). exists ls, (map (fun l => mkEntry (code_name (l_code l)) (l_msg l) (l_fig l) (lint_json l)) ls).
  split; [exact LS|]. split; [unfold report_lint; unfold meta_value in LS; rewrite LS; apply map_entry|].
  assert (PC : plain_codes (map (fun l => mkEntry (code_name (l_code l)) (l_msg l) (l_fig l) (lint_json l)) ls)).
  { apply Forall_forall. intros e X. apply in_map_iff in X as (l & <- & _). cbn [le_code].
    split; [destruct (l_code l); vm_compute; discriminate|].
    apply smem_not_In. destruct (l_code l); vm_compute; reflexivity. }
  split; [exact PC|]. split; [rewrite map_map; reflexivity|]. split; [rewrite map_map; reflexivity|].
  rewrite (C58_sum _ PC), map_length. reflexivity.
Qed.

(** ** C70: the table shown with a figure *)

Lemma horner_dec s : forall n, Forall (fun c => 48 <= c <= 57) s ->
  fold_left (fun n c => 10 * n + (c - 48)) s n = n * 10 ^ N.of_nat (List.length s) + dec_value s.
Proof.
  induction s as [|c s IH]; intros n F; cbn [fold_left dec_value List.length].
  - rewrite N.pow_0_r. lia.
  - apply Forall_cons_iff in F as [C F]. rewrite (IH _ F). assert (digit c = c - 48) as ->.
    { unfold digit, digit_val. replace (c <? 128) with true by (symmetry; apply N.ltb_lt; lia).
      replace ((48 <=? c) && (c <=? 57)) with true by lia. reflexivity. }
    rewrite Nat2N.inj_succ, N.pow_succ_r'. lia.
Qed.
Lemma xpath_digits_iff s n : xpath_digits s = Some n <-> decimal s n.
Proof.
  unfold xpath_digits, decimal. destruct s as [|c s]; [split; [discriminate|intros (N & _); contradiction]|].
  destruct (forallb _ (c :: s)) eqn:F.
  - assert (FF : Forall (fun c => 48 <= c <= 57) (c :: s)).
    { apply Forall_forall. intros x X. apply (proj1 (forallb_forall _ _) F) in X. lia. }
    rewrite horner_dec, N.mul_0_l, N.add_0_l by exact FF. split.
    + intros [= <-]. repeat split; [discriminate|exact FF].
    + intros (_ & _ & <-). reflexivity.
  - split; [discriminate|]. intros (_ & FF & _). exfalso. assert (forallb (fun c => (48 <=? c) && (c <=? 57)) (c :: s) = true) as FT.
    { apply forallb_forall. intros x X. apply (proj1 (Forall_forall _ _) FF) in X. lia. }
    rewrite FT in F. discriminate.
Qed.
Lemma xml_space_In c : xml_space c = true <-> In c [32; 9; 10; 13].
Proof. unfold xml_space. cbn [In]. lia. Qed.
Lemma reads_strip v n : reads_number v n <-> xpath_digits (strip_by xml_space v) = Some n.
Proof.
  rewrite xpath_digits_iff. split.
  - intros (l & s & r & -> & D & FL & FR). assert (strip_by xml_space (l ++ s ++ r) = s) as ->; [|exact D].
    assert (AL : forallb xml_space l = true) by (apply forallb_forall; intros x X; apply xml_space_In; exact (proj1 (Forall_forall _ _) FL x X)).
    assert (AR : forallb xml_space (rev r) = true)
      by (apply forallb_forall; intros x X; apply xml_space_In; apply in_rev in X; exact (proj1 (Forall_forall _ _) FR x X)).
    assert (DS : forall x, In x s -> xml_space x = false).
    { intros x X. destruct D as (_ & D & _). apply (proj1 (Forall_forall _ _) D) in X. unfold xml_space. lia. }
    destruct D as (NE & _ & _).
    unfold strip_by, lstrip_by, rstrip_by.
    rewrite (drop_while_unique xml_space l (s ++ r)); [|exact AL|].
    + rewrite rev_app_distr, (drop_while_unique xml_space (rev r) (rev s)); [apply rev_involutive|exact AR|].
      destruct (rev s) as [|y t] eqn:R; [cbn; exact Logic.I|]. cbn. apply DS. apply in_rev. rewrite R. left. reflexivity.
    + destruct s as [|y t]; [contradiction|]. cbn. apply DS. left. reflexivity.
  - intros D. destruct (strip_sub xml_space v) as (a & b & E & A & B). exists a, (strip_by xml_space v), b.
    split; [exact E|]. split; [exact D|]. split; apply Forall_forall; intros x X; apply xml_space_In;
      [exact (proj1 (forallb_forall _ _) A x X)|exact (proj1 (forallb_forall _ _) B x X)].
Qed.
Lemma id_matches_iff f n t : decimal f n -> (id_matches f t = true <-> id_number t n).
Proof.
  intros D. unfold id_matches, id_number. rewrite (proj2 (xpath_digits_iff f n) D).
  destruct (attr (utf8 "id") t) as [v|]; [|split; [discriminate|intros (v & [=] & _)]]. split.
  - destruct (xpath_digits (strip_by xml_space v)) as [m|] eqn:X; [|discriminate]. intros E. apply N.eqb_eq in E. subst m.
    exists v. split; [reflexivity|]. apply reads_strip. exact X.
  - intros (v' & [= <-] & R). apply reads_strip in R. rewrite R. apply N.eqb_refl.
Qed.

Lemma figure_id_iff fig f : top_id fig f <-> figure_id fig = f.
Proof.
  unfold figure_id. revert f. induction fig as [|c fig IH]; intros f; cbn [split_char].
  - split; [intros (_ & [<-|(r & E)]); [reflexivity|destruct f; discriminate]|]. intros <-. split; [intros []|auto].
  - destruct (N.eqb_spec c 95) as [->|Ne].
    + split.
      * intros (N & [<-|(r & E)]); [destruct N; left; reflexivity|]. destruct f as [|x f]; [reflexivity|].
        injection E as <- _. destruct N. left. reflexivity.
      * intros <-. split; [intros []|]. right. exists fig. reflexivity.
    + destruct (split_char 95 fig) as [|w ws] eqn:SP.
      { exfalso. destruct fig as [|x r]; [discriminate|]. cbn [split_char] in SP. destruct (x =? 95); [discriminate|]. destruct (split_char 95 r); discriminate. }
      specialize (IH w). destruct IH as [_ IH]. destruct (IH eq_refl) as (NW & FW). split.
      * intros (N & [<-|(r & E)]).
        -- f_equal. destruct FW as [FW|(r & FW)]; [congruence|]. exfalso. apply N. right. rewrite FW. apply in_or_app. right. left. reflexivity.
        -- destruct f as [|x f]; [injection E as E _; contradiction|]. injection E as <- E. f_equal.
           assert (NF : ~ In 95 f) by (intros X; apply N; right; exact X).
           destruct FW as [FW|(r' & FW)].
           ++ exfalso. apply NW. rewrite <- FW, E. apply in_or_app. right. left. reflexivity.
           ++ rewrite E in FW. clear - FW NF NW. revert f NF FW. induction w as [|y w IH]; intros [|z f] NF FW; try reflexivity.
              ** cbn in FW. injection FW as Z _. destruct NF. left. exact Z.
              ** cbn in FW. injection FW as Z _. destruct NW. left. symmetry. exact Z.
              ** cbn in FW. injection FW as -> FW. f_equal. apply IH; [intros X; apply NW; right; exact X|intros X; apply NF; right; exact X|exact FW].
      * intros <-. split.
        -- intros [X|X]; [congruence|contradiction].
        -- destruct FW as [->|(r & ->)]; [left; reflexivity|right; exists r; reflexivity].
Qed.

Lemma own_figures figs doc f : own f (erroneous_figures figs doc) = if smem f figs then find_figure doc f else None.
Proof.
  induction figs as [|g figs IH]; [reflexivity|].
  change (erroneous_figures (g :: figs) doc) with ((match find_figure doc g with Some t => [(g, t)] | None => [] end) ++ erroneous_figures figs doc).
  change (smem f (g :: figs)) with (seqb f g || smem f figs). rewrite seqb_sym.
  assert (OA : forall x y : list (str * elem), own f (x ++ y) = match own f x with Some t => Some t | None => own f y end).
  { intros x y. unfold own. rewrite find_app. destruct (find _ x); reflexivity. }
  rewrite OA, IH. destruct (find_figure doc g) as [t|] eqn:G; unfold own; cbn [find fst].
  - destruct (seqb_spec g f) as [->|_]; cbn [orb snd]; [congruence|reflexivity].
  - destruct (seqb_spec g f) as [->|_]; cbn [orb]; [|reflexivity]. destruct (smem f figs); congruence.
Qed.

Lemma find_first {A} (p : A -> bool) l x : find p l = Some x -> exists a b, l = a ++ x :: b /\ p x = true /\ Forall (fun y => p y = false) a.
Proof.
  induction l as [|y l IH]; [discriminate|]. cbn [find]. destruct (p y) eqn:E.
  - intros [= <-]. exists [], l. auto.
  - intros F. destruct (IH F) as (a & b & -> & P & Q). exists (y :: a), b. auto.
Qed.

(** A lint entry of a figure with a numeric id, or of a figure nested in it, is shown with the
    first table in the body of the HTML document whose id is that number; if there is none, with
    the id of the figure. *)
Theorem C70_table lint figs doc e f n :
  (forall g, In g figs <-> exists e', In e' lint /\ top_id (le_fig e') g) ->
  In e lint -> top_id (le_fig e) f -> decimal f n ->
  (exists t, first_table doc n t /\ get_figure (erroneous_figures figs doc) (le_fig e) = ShowTable t)
  \/ (forall t, In t (body_tables doc) -> ~ id_number t n)
     /\ get_figure (erroneous_figures figs doc) (le_fig e) = ShowId (le_fig e).
Proof.
  intros FG IN TI D. unfold get_figure. pose proof (proj1 (figure_id_iff _ _) TI) as FI. rewrite FI.
  assert (IF : smem f figs = true) by (apply smem_In, FG; eauto). rewrite own_figures, IF.
  assert (FF : figure_id f = f) by (apply figure_id_iff; split; [apply TI|left; reflexivity]).
  unfold find_figure. rewrite FF. fold (body_tables doc).
  destruct (find (id_matches f) (body_tables doc)) as [t|] eqn:F.
  - left. exists t. split; [|reflexivity]. destruct (find_first _ _ _ F) as (a & b & E & P & Q).
    exists a, b. split; [exact E|]. split; [apply (id_matches_iff f n t D); exact P|].
    apply Forall_forall. intros x X I. apply (id_matches_iff f n x D) in I. rewrite (proj1 (Forall_forall _ _) Q x X) in I. discriminate.
  - right. split.
    + intros t X I. apply (id_matches_iff f n t D) in I. rewrite (find_none _ _ F t X) in I. discriminate.
    + assert (SM : smem f inherited = false); [|rewrite SM; reflexivity].
      apply smem_not_In. intros X. destruct D as (NE & DD & _). unfold inherited in X.
      destruct f as [|c f]; [contradiction|]. apply Forall_cons_iff in DD as [DC _].
      apply in_map_iff in X as (s & Q & X). cbn [In] in X.
      repeat (destruct X as [<-|X]; [vm_compute in Q; injection Q as <- _; lia|]). destruct X.
Qed.

(** ** Examples *)
Local Open Scope string_scope.
Local Open Scope list_scope.
Definition rp_entry (c f : string) : entry := mkEntry (utf8 c) (utf8 "m") (utf8 f) JNull.
Definition rp_lint : list entry :=
  [rp_entry "T1002" "104"; rp_entry "L1003" "9_3"; rp_entry "L1003" "104_2_1"; rp_entry "T1000" "FIG_ID_MISSING[0]";
   rp_entry "L1003" "9_3"].
Example rp_plain : plain_codes rp_lint /\ plain_figures rp_lint.
Proof.
  split; repeat constructor; try discriminate; apply smem_not_In; vm_compute; reflexivity.
Qed.
Example rp_rows : map (fun r => (w_code r, w_amount r)) (lint_group_by_code rp_lint)
    = [(utf8 "L1003", 3); (utf8 "T1002", 1); (utf8 "T1000", 1)] /\ error_sum rp_lint = 5.
Proof. vm_compute. auto. Qed.
(** "T1002" clicked twice, "T1000" clicked, cleared, then "L1003" clicked. *)
Definition rp_clicks : list click :=
  [ClickRow (utf8 "T1002"); ClickRow (utf8 "T1000"); ClickClear; ClickRow (utf8 "L1003"); ClickRow (utf8 "T1002"); ClickRow (utf8 "T1002")].
Example rp_chosen : chosen (utf8 "L1003") rp_clicks /\ ~ chosen (utf8 "T1000") rp_clicks.
Proof.
  rewrite <- !sel_chosen. unfold rp_clicks. cbn [sel].
  repeat match goal with |- context [str_eq_dec (utf8 ?a) (utf8 ?b)] =>
    destruct (str_eq_dec (utf8 a) (utf8 b)) as [E|E]; [try (vm_compute in E; discriminate E)|try (destruct E; reflexivity)]; clear E end.
  cbn. split; [reflexivity|discriminate].
Qed.
Example rp_figures :
  option_map (map (fun p => (fst p, List.length (snd p)))) (figures_shown (after_clicks rp_lint rp_clicks) rp_lint)
    = Some [(utf8 "9_3", 2%nat); (utf8 "104_2_1", 1%nat)]
  /\ option_map (map fst) (figures_shown (after_clicks rp_lint []) rp_lint)
    = Some [utf8 "104"; utf8 "9_3"; utf8 "104_2_1"; utf8 "FIG_ID_MISSING[0]"].
Proof. vm_compute. auto. Qed.

(** A document with a figure called "constructor" breaks the page: it is processed without an
    exception, but the list of figures cannot be computed. *)
Definition doc_con : elem := d_fig "Figure constructor: C" [d_cells ["15:8"; "High (HI): h."]; d_cells ["3:0"; "Low (LO): l."]].
Theorem C58_builtin_refuted : exists d lint,
  r_end (parse_spec (utf8 "1") (mkArgs true []) true None (Html (Tree (o_doc [doc_con])))) = Finished
  /\ r_file (parse_spec (utf8 "1") (mkArgs true []) true None (Html (Tree (o_doc [doc_con])))) = Some d
  /\ report_lint d = Some lint /\ lint <> [] /\ figures_shown (after_clicks lint []) lint = None.
Proof.
  do 2 eexists. split; [vm_compute; reflexivity|]. split; [vm_compute; reflexivity|]. split; [vm_compute; reflexivity|].
  split; [discriminate|]. vm_compute. reflexivity.
Qed.

Definition rp_table (id t : string) : elem := Elem (utf8 "table") [(utf8 "id", utf8 id)] (utf8 t) [].
Definition rp_doc : elem := Elem (utf8 "html") [] []
  [(Elem (utf8 "body") [] [] [(rp_table "9" "a", []); (rp_table " 0104" "b", []); (rp_table "104" "c", [])], [])].
Example rp_table_ex : get_figure (erroneous_figures [utf8 "FIG"; utf8 "104"; utf8 "9"] rp_doc) (utf8 "104_2_1") = ShowTable (rp_table " 0104" "b")
  /\ get_figure (erroneous_figures [utf8 "FIG"; utf8 "104"; utf8 "9"] rp_doc) (utf8 "FIG_ID_MISSING[0]") = ShowId (utf8 "FIG_ID_MISSING[0]")
  /\ decimal (utf8 "104") 104 /\ top_id (utf8 "104_2_1") (utf8 "104") /\ first_table rp_doc 104 (rp_table " 0104" "b").
Proof.
  split; [vm_compute; reflexivity|]. split; [vm_compute; reflexivity|].
  split; [apply xpath_digits_iff; vm_compute; reflexivity|]. split; [apply figure_id_iff; vm_compute; reflexivity|].
  exists [rp_table "9" "a"], [rp_table "104" "c"]. split; [vm_compute; reflexivity|].
  assert (D : decimal (utf8 "104") 104) by (apply xpath_digits_iff; vm_compute; reflexivity).
  split; [apply (id_matches_iff (utf8 "104") 104 _ D); vm_compute; reflexivity|].
  constructor; [|constructor]. intros X. apply (id_matches_iff (utf8 "104") 104 _ D) in X. vm_compute in X. discriminate.
Qed.

Print Assumptions C58_rows.
Print Assumptions C58_sum.
Print Assumptions C58_selected.
Print Assumptions C58_figures.
Print Assumptions C58_report.
Print Assumptions C58_builtin_refuted.
Print Assumptions C70_table.
