(** The grid computation of docx tables. *)
From Coq Require Import NArith ZArith List Bool String Lia ZifyBool ZifyNat.
From Verif Require Import PyStr PyStrFacts Docx SpecQuery SpecGrid QueryProofs.
Import ListNotations.
Local Open Scope string_scope.
Local Open Scope list_scope.
Local Open Scope nat_scope.

Definition spans (l : list wcell) : nat := list_sum (map wc_span l).
Lemma spans_app a b : spans (a ++ b) = spans a + spans b.
Proof. unfold spans. rewrite map_app, list_sum_app. reflexivity. Qed.
Lemma spans_cons c b : spans (c :: b) = wc_span c + spans b.
Proof. reflexivity. Qed.

(** ** The computation on the layout *)

Fixpoint nrow (R : nat) (above : option (list nat)) (cs : list wcell) (h : heap) (acc : list nat) : option (heap * list nat) :=
  match cs with
  | [] => Some (h, acc)
  | c :: r =>
      match
       (if wc_cont c then
          match above with
          | None => None
          | Some a =>
              match nth_error a (List.length acc) with
              | None => None
              | Some i => match nth_error h i with
                          | None => None
                          | Some g => if (Z.of_nat (wc_span c) =? g_colspan g)%Z then Some (update i (set_bottom (Z.of_nat R)) h, i) else None
                          end
              end
          end
        else Some (h ++ [mkG (wc_tc c) (Z.of_nat R) (Z.of_nat R) (Z.of_nat (List.length acc))
                           (Z.of_nat (List.length acc) + Z.of_nat (wc_span c) - 1)%Z], List.length h))
      with
      | None => None
      | Some (h', i) => nrow R above r h' (acc ++ repeat i (wc_span c))
      end
  end.
Definition last_row {A} (m : list A) : option A := match rev m with [] => None | a :: _ => Some a end.
Fixpoint nrows (rows : list (list wcell)) (h : heap) (m : list (list nat)) : option (heap * list (list nat)) :=
  match rows with
  | [] => Some (h, m)
  | row :: r =>
      match nrow (List.length m) (last_row m) row h [] with
      | None => None
      | Some (h', cells) => nrows r h' (m ++ [cells])
      end
  end.

Definition agrees {A} (d : dres A) (o : option A) : Prop :=
  match o with Some a => d = DOk a | None => exists e, d = DErr e end.

Lemma py_index_nat {A} (l : list A) n : py_index l (Z.of_nat n) = match nth_error l n with Some a => DOk a | None => DErr DIndex end.
Proof.
  unfold py_index. destruct (Z.ltb_spec (Z.of_nat n) 0); [lia|]. cbv zeta. destruct (Z.ltb_spec (Z.of_nat n) 0); [lia|]. rewrite Nat2Z.id. reflexivity.
Qed.

(** What the program reads of a cell. *)
Lemma spans_columns_iff tc n : tc_grid_span tc = DOk n <-> spans_columns tc n.
Proof.
  unfold tc_grid_span, spans_columns. destruct (attr_first ["w:tcPr"; "w:gridSpan"] "w:val" tc) as [s|] eqn:A.
  - assert (V := proj1 (first_value_iff _ _ _ _) A). rewrite d_int_iff. split.
    + intros P. left. exists s. auto.
    + intros [(s' & V' & P)|[N _]]; [rewrite (first_value_det _ _ _ _ _ V V'); exact P | exfalso; exact (N _ V)].
  - assert (N := proj1 (no_value_iff _ _ _) A). split; [intros [= <-]; auto|]. intros [(s' & V' & _)|[_ ->]]; [exfalso; exact (N _ V') | reflexivity].
Qed.
Lemma vmerge_iff tc : (cell_vertical_merge tc = DOk VMerged <-> continues_above tc)
  /\ ((exists vm, cell_vertical_merge tc = DOk vm /\ vm <> VMerged) <-> begins_anew tc).
Proof.
  unfold cell_vertical_merge, continues_above, begins_anew. destruct (elem_first ["w:tcPr"; "w:vMerge"] tc) as [m|] eqn:E.
  - assert (V := proj1 (first_elem_iff _ _ _) E). rewrite attr_here.
    assert (D : forall m', first_elem ["w:tcPr"; "w:vMerge"] tc m' -> m' = m) by (intros m' V'; exact (first_elem_det _ _ _ _ V' V)).
    destruct (w_attr "w:val" m) as [[|c r]|] eqn:W.
    + split; [split; [intros _; exists m; auto | reflexivity]|]. split; [intros (vm & [= <-] & X); congruence|].
      intros [N|(m' & V' & W')]; [exfalso; exact (N _ V)|]. rewrite (D m' V') in W'. rewrite W in W'. discriminate W'.
    + destruct (seqb (c :: r) (utf8 "restart")) eqn:Q.
      * apply seqb_eq in Q. split.
        -- split; [discriminate|]. intros (m' & V' & W'). rewrite (D m' V') in W'. rewrite W in W'. destruct W'; discriminate.
        -- split; [intros _; right; exists m; split; [exact V | congruence]|]. intros _. exists VRestart. split; [reflexivity | discriminate].
      * split.
        -- split; [discriminate|]. intros (m' & V' & W'). rewrite (D m' V') in W'. rewrite W in W'. destruct W'; discriminate.
        -- split; [intros (vm & X & _); discriminate|]. intros [N|(m' & V' & W')]; [exfalso; exact (N _ V)|]. rewrite (D m' V') in W'. rewrite W in W'. 
           apply seqb_neq in Q. exfalso. congruence.
    + split; [split; [intros _; exists m; auto | reflexivity]|]. split; [intros (vm & [= <-] & X); congruence|].
      intros [N|(m' & V' & W')]; [exfalso; exact (N _ V)|]. rewrite (D m' V') in W'. rewrite W in W'. discriminate W'.
  - assert (N := proj1 (no_elem_iff _ _) E). split.
    + split; [discriminate|]. intros (m & V & _). exfalso. exact (N _ V).
    + split; [intros _; left; exact N|]. intros _. exists VNone. split; [reflexivity | discriminate].
Qed.
Lemma is_wcell_iff tc c : is_wcell tc c <->
  wc_tc c = tc /\ (1 <= wc_span c)%nat /\ tc_grid_span tc = DOk (Z.of_nat (wc_span c))
  /\ exists vm, cell_vertical_merge tc = DOk vm /\ (wc_cont c = true <-> vm = VMerged).
Proof.
  unfold is_wcell. rewrite <- spans_columns_iff. destruct (vmerge_iff tc) as [V1 V2]. destruct (wc_cont c).
  - rewrite <- V1. split.
    + intros (A & B & C & D). repeat split; auto. exists VMerged. tauto.
    + intros (A & B & C & vm & D & E). repeat split; auto. rewrite D. f_equal. apply E. reflexivity.
  - rewrite <- V2. split.
    + intros (A & B & C & vm & D & E). repeat split; auto. exists vm. split; [exact D|]. split; [discriminate | intros X; contradiction].
    + intros (A & B & C & vm & D & E). repeat split; auto. exists vm. split; [exact D|]. intros X. apply E in X. discriminate.
Qed.

Ltac wlayout := repeat (match goal with
  | |- is_wcell _ _ => apply is_wcell_iff; split; [reflexivity|]; split; [cbn; lia|]; split; [vm_compute; reflexivity|]; eexists; split; [vm_compute; reflexivity|];
       split; intros X; (reflexivity || discriminate X)
  | _ => constructor end).

Lemma grid_row_nrow R above tcs cs : Forall2 is_wcell tcs cs -> forall h acc,
  agrees (grid_row (Z.of_nat R) above tcs (Z.of_nat (List.length acc)) h acc) (nrow R above cs h acc).
Proof.
  induction 1 as [|tc c tcs cs W _ IH]; intros h acc; [reflexivity|]. apply is_wcell_iff in W as (E1 & E2 & E3 & vm & E4 & E5).
  cbn [grid_row nrow]. rewrite E3, E4. cbn [dbind].
  assert (L : forall i, (Z.of_nat (List.length acc) + Z.of_nat (wc_span c))%Z = Z.of_nat (List.length (acc ++ repeat i (wc_span c)))).
  { intros i. rewrite app_length, repeat_length. lia. }
  destruct (wc_cont c) eqn:C.
  - assert (vm = VMerged) as -> by (apply E5; reflexivity). destruct above as [a|]; [|cbn; eauto].
    rewrite py_index_nat. destruct (nth_error a (List.length acc)) as [i|]; [|cbn; eauto]. cbn [dbind].
    destruct (nth_error h i) as [g|]; [|cbn; eauto]. destruct (_ =? _)%Z; [|cbn; eauto]. cbn [dbind].
    rewrite Nat2Z.id, (L i). apply IH.
  - assert (M : vm <> VMerged) by (intros X; apply E5 in X; discriminate).
    destruct vm; try congruence; cbn [dbind]; rewrite Nat2Z.id, (L (List.length h)), E1; apply IH.
Qed.

Lemma grid_rows_nrows trs rows : Forall2 (fun tr cs => Forall2 is_wcell (w_children "w:tc" tr) cs) trs rows ->
  forall h m, agrees (grid_rows (Z.of_nat (List.length m)) trs h m) (nrows rows h m).
Proof.
  induction 1 as [|tr row trs rows H _ IH]; intros h m; [reflexivity|]. cbn [grid_rows nrows].
  pose proof (grid_row_nrow (List.length m) (last_row m) _ _ H h []) as G. cbn [List.length] in G.
  change (Z.of_nat 0) with 0%Z in G. fold (last_row m).
  destruct (nrow (List.length m) (last_row m) row h []) as [[h' cells]|]; cbn [agrees] in G.
  - rewrite G. cbn [dbind]. replace (Z.of_nat (List.length m) + 1)%Z with (Z.of_nat (List.length (m ++ [cells]))); [apply IH|].
    rewrite app_length. cbn. lia.
  - destruct G as (e & ->). cbn. eauto.
Qed.

(** ** Small facts *)

Lemma Forall2_length {A B} (P : A -> B -> Prop) l l' : Forall2 P l l' -> List.length l = List.length l'.
Proof. induction 1; cbn; congruence. Qed.

Lemma nth_update {A} i (f : A -> A) l j : nth_error (update i f l) j = if i =? j then option_map f (nth_error l j) else nth_error l j.
Proof.
  revert i j. induction l as [|a l IH]; intros [|i] [|j]; cbn; try reflexivity.
  - destruct (i =? j); reflexivity.
  - rewrite IH. reflexivity.
Qed.
Lemma update_length {A} i (f : A -> A) l : List.length (update i f l) = List.length l.
Proof. revert i. induction l as [|a l IH]; intros [|i]; cbn; auto. Qed.

Lemma last_row_snoc {A} (m : list A) a : last_row (m ++ [a]) = Some a.
Proof. unfold last_row. rewrite rev_app_distr. reflexivity. Qed.
Lemma last_row_nth {A} (m : list A) a : last_row m = Some a <-> exists n, List.length m = S n /\ nth_error m n = Some a.
Proof.
  destruct m as [|x m] using rev_ind.
  - split; [discriminate | intros (n & E & _); discriminate].
  - rewrite last_row_snoc, app_length. cbn. split.
    + intros [= ->]. exists (List.length m). split; [lia|]. rewrite nth_error_app2, Nat.sub_diag by lia. reflexivity.
    + intros (n & E & N). assert (n = List.length m) as -> by lia. rewrite nth_error_app2, Nat.sub_diag in N by lia. exact N.
Qed.

Lemma at_snoc {A} (m : list (list A)) acc r x :
  at_pos (m ++ [acc]) r x = if r =? List.length m then nth_error acc x else at_pos m r x.
Proof.
  unfold at_pos. destruct (Nat.eqb_spec r (List.length m)) as [->|N].
  - rewrite nth_error_app2, Nat.sub_diag by lia. reflexivity.
  - destruct (Nat.lt_ge_cases r (List.length m)).
    + rewrite nth_error_app1 by lia. reflexivity.
    + rewrite nth_error_app2 by lia. assert (nth_error m r = None) as -> by (apply nth_error_None; lia).
      destruct (r - List.length m) as [|k] eqn:E; [lia|]. cbn. destruct k; reflexivity.
Qed.
Lemma at_beyond {A} (m : list (list A)) r x : List.length m <= r -> at_pos m r x = None.
Proof. intros H. unfold at_pos. apply nth_error_None in H. rewrite H. reflexivity. Qed.

Lemma nth_acc (acc : list nat) i n x :
  nth_error (acc ++ repeat i n) x
  = if x <? List.length acc then nth_error acc x else if x <? List.length acc + n then Some i else None.
Proof.
  destruct (Nat.ltb_spec x (List.length acc)); [apply nth_error_app1; lia|]. rewrite nth_error_app2 by lia.
  destruct (Nat.ltb_spec x (List.length acc + n)).
  - assert (L : x - List.length acc < n) by lia. revert L. generalize (x - List.length acc) as y. clear. revert n.
    intros n y. revert n. induction y as [|y IH]; intros [|n] L; cbn; try lia; [reflexivity|]. apply IH. lia.
  - apply nth_error_None. rewrite repeat_length. lia.
Qed.

Lemma begins_snoc A c x d : begins (A ++ [c]) x d <-> begins A x d \/ (x = spans A /\ d = c).
Proof.
  split.
  - intros (P & Q & E & X). destruct Q as [|q Q] using rev_ind.
    + apply app_inj_tail in E as [-> ->]. right. split; [exact X | reflexivity].
    + rewrite app_comm_cons, app_assoc in E. apply app_inj_tail in E as [-> ->]. left. exists P, Q. auto.
  - intros [(P & Q & -> & ->)|[-> ->]].
    + exists P, (Q ++ [c]). split; [rewrite <- app_assoc; reflexivity | reflexivity].
    + exists A, []. split; reflexivity.
Qed.

Lemma begins_end row x c : begins row x c -> x + wc_span c <= spans row.
Proof. intros (A & B & -> & ->). rewrite spans_app, spans_cons. fold (spans A). lia. Qed.

Lemma covering row x : Forall (fun c => 1 <= wc_span c) row -> x < spans row -> exists y c, begins row y c /\ y <= x < y + wc_span c.
Proof.
  intros _. induction row as [|c row IH] using rev_ind; intros H; [cbn in H; lia|].
  rewrite spans_app, spans_cons in H. destruct (Nat.lt_ge_cases x (spans row)) as [L|L].
  - destruct (IH L) as (y & d & B & Y). exists y, d. split; [apply begins_snoc; left; exact B | exact Y].
  - exists (spans row), c. split; [apply begins_snoc; right; auto|]. cbn in H. lia.
Qed.

Lemma begins_det row x y c d z : begins row x c -> begins row y d -> x <= z < x + wc_span c -> y <= z < y + wc_span d -> x = y /\ c = d.
Proof.
  induction row as [|e row IH] using rev_ind; intros B1 B2 H1 H2.
  - destruct B1 as ([|? ?] & ? & E & _); discriminate.
  - apply begins_snoc in B1, B2. destruct B1 as [B1|[-> ->]], B2 as [B2|[-> ->]].
    + exact (IH B1 B2 H1 H2).
    + apply begins_end in B1. lia.
    + apply begins_end in B2. lia.
    + auto.
Qed.

(** ** Heaps only grow, and only bottoms change *)

Definition same_but_bottom (g g' : gcell) : Prop :=
  g_cell g' = g_cell g /\ g_top g' = g_top g /\ g_left g' = g_left g /\ g_right g' = g_right g.
Definition ext (h h' : heap) : Prop := forall i g, nth_error h i = Some g -> exists g', nth_error h' i = Some g' /\ same_but_bottom g g'.

Lemma ext_refl h : ext h h.
Proof. intros i g H. exists g. unfold same_but_bottom. auto. Qed.
Lemma ext_trans a b c : ext a b -> ext b c -> ext a c.
Proof.
  intros H1 H2 i g H. destruct (H1 i g H) as (g1 & X1 & Y1 & Y2 & Y3 & Y4). destruct (H2 i g1 X1) as (g2 & X2 & Z1 & Z2 & Z3 & Z4).
  exists g2. split; [exact X2|]. unfold same_but_bottom. rewrite Z1, Z2, Z3, Z4. auto.
Qed.
Lemma ext_app h g : ext h (h ++ [g]).
Proof. intros i x H. exists x. split; [rewrite nth_error_app1; [exact H | apply nth_error_Some; congruence]|]. unfold same_but_bottom. auto. Qed.
Lemma ext_update h i b : ext h (update i (set_bottom b) h).
Proof.
  intros j g H. rewrite nth_update, H. destruct (i =? j); cbn.
  - eexists. split; [reflexivity|]. unfold same_but_bottom. destruct g; cbn; auto.
  - exists g. unfold same_but_bottom. auto.
Qed.
Lemma colspan_same g g' : same_but_bottom g g' -> g_colspan g' = g_colspan g.
Proof. intros (_ & _ & E1 & E2). unfold g_colspan. rewrite E1, E2. reflexivity. Qed.

(** ** Aligned layouts *)

Section Aligned.
Variable rows : list (list wcell).

Record INV (h : heap) (m : list (list nat)) : Prop := {
  inv_pos : forall r x i, at_pos m r x = Some i <-> exists g, nth_error h i = Some g /\ inside r x g;
  inv_ok : forall i g, nth_error h i = Some g -> (0 <= g_top g <= g_bottom g)%Z /\ (0 <= g_left g <= g_right g)%Z;
  inv_shown : forall r x i g, at_pos m r x = Some i -> nth_error h i = Some g -> shown_at rows r x (g_cell g);
  inv_origin : forall i g, nth_error h i = Some g -> exists r row x c, g_top g = Z.of_nat r /\ g_left g = Z.of_nat x
     /\ nth_error rows r = Some row /\ begins row x c /\ wc_tc c = g_cell g /\ wc_cont c = false /\ g_colspan g = Z.of_nat (wc_span c) }.

(** The cells [A] of a row and their elements: left and right edges. *)
Definition LR (A : list wcell) (acc : list nat) (h : heap) : Prop :=
  forall x c, begins A x c -> exists i g, nth_error acc x = Some i /\ nth_error h i = Some g
    /\ g_left g = Z.of_nat x /\ g_right g = (Z.of_nat x + Z.of_nat (wc_span c) - 1)%Z.

Lemma LR_ext A acc more h h' : LR A acc h -> ext h h' -> LR A (acc ++ more) h'.
Proof.
  intros H E x c B. destruct (H x c B) as (i & g & X1 & X2 & X3 & X4). destruct (E i g X2) as (g' & Y1 & Y2 & Y3 & Y4 & Y5).
  exists i, g'. split; [rewrite nth_error_app1; [exact X1 | apply nth_error_Some; congruence]|]. rewrite Y4, Y5. auto.
Qed.

Lemma nrow_aligned row m up a : nth_error rows (List.length m) = Some row -> Forall (fun c => 1 <= wc_span c) row ->
  last_row m = a ->
  (forall x c, begins row x c -> wc_cont c = true -> exists arow c', a = Some arow /\ begins up x c' /\ wc_span c' = wc_span c) ->
  forall cs A h acc, row = A ++ cs -> List.length acc = spans A ->
  INV h (m ++ [acc]) -> LR A acc h -> (forall arow, a = Some arow -> LR up arow h) ->
  exists h' acc', nrow (List.length m) a cs h acc = Some (h', acc') /\ INV h' (m ++ [acc']) /\ LR row acc' h' /\ ext h h' /\ List.length acc' = spans row.
Proof.
  intros NR POS LA AL. induction cs as [|c cs IH]; intros A h acc E L I LRA LRU.
  - exists h, acc. split; [reflexivity|]. rewrite app_nil_r in E. subst A. split; [exact I|]. split; [exact LRA|]. split; [apply ext_refl | exact L].
  - cbn [nrow].
    assert (B : begins row (spans A) c) by (exists A, cs; auto).
    assert (SP : 1 <= wc_span c) by (rewrite E in POS; apply Forall_app in POS as [_ POS]; apply Forall_inv in POS; exact POS).
    assert (E' : row = (A ++ [c]) ++ cs) by (rewrite <- app_assoc; exact E).
    destruct (wc_cont c) eqn:C.
    + destruct (AL _ _ B C) as (arow & c' & Ea & B' & W). rewrite Ea. rewrite L.
      destruct (LRU arow Ea (spans A) c' B') as (i & g & X1 & X2 & X3 & X4). rewrite X1, X2.
      assert (CS : g_colspan g = Z.of_nat (wc_span c)) by (unfold g_colspan; lia). rewrite CS, Z.eqb_refl.
      rewrite Ea in LA. apply last_row_nth in LA as (n & Ln & Nn).
      assert (AT : at_pos (m ++ [acc]) n (spans A) = Some i).
      { rewrite at_snoc. destruct (Nat.eqb_spec n (List.length m)); [lia|]. unfold at_pos. rewrite Nn. exact X1. }
      assert (BOT : g_bottom g = Z.of_nat n).
      { pose proof (proj1 (inv_pos _ _ I _ _ _) AT) as (g1 & G1 & IN1). rewrite X2 in G1. injection G1 as <-. destruct IN1 as [T1 T2].
        assert (~ (Z.of_nat n < g_bottom g)%Z); [|lia]. intros LT.
        assert (IN : inside (List.length m) (spans A) g) by (unfold inside; lia).
        assert (X : at_pos (m ++ [acc]) (List.length m) (spans A) = Some i) by (apply (inv_pos _ _ I); eauto).
        rewrite at_snoc, Nat.eqb_refl in X. assert (spans A < List.length acc) by (apply nth_error_Some; congruence). lia. }
      set (h' := update i (set_bottom (Z.of_nat (List.length m))) h).
      set (acc' := acc ++ repeat i (wc_span c)).
      assert (H' : forall j, nth_error h' j = if i =? j then Some (set_bottom (Z.of_nat (List.length m)) g) else nth_error h j).
      { intros j. unfold h'. rewrite nth_update. destruct (Nat.eqb_spec i j) as [<-|N]; [rewrite X2|]; reflexivity. }
      assert (EX : ext h h') by apply ext_update.
      assert (IN' : forall r x, inside r x (set_bottom (Z.of_nat (List.length m)) g) <-> inside r x g \/ (r = List.length m /\ (spans A <= x < spans A + wc_span c))).
      { intros r x. unfold inside, set_bottom. cbn [g_top g_bottom g_left g_right].
        pose proof (inv_ok _ _ I _ _ X2). lia. }
      assert (I' : INV h' (m ++ [acc'])).
      { split.
        - intros r x j. rewrite at_snoc. unfold acc'. rewrite nth_acc, L.
          pose proof (inv_pos _ _ I r x j) as P. rewrite at_snoc in P. rewrite H'.
          destruct (Nat.eqb_spec r (List.length m)) as [->|Nr].
          + destruct (Nat.ltb_spec x (spans A)) as [Lx|Lx].
            * rewrite P. destruct (Nat.eqb_spec i j) as [<-|N]; [|reflexivity]. split.
              -- intros (g1 & G1 & IN1). rewrite X2 in G1. injection G1 as <-. eexists. split; [reflexivity|]. apply IN'. auto.
              -- intros (g1 & [= <-] & IN1). apply IN' in IN1 as [IN1|IN1]; [eauto | lia].
            * assert (NA : nth_error acc x = None) by (apply nth_error_None; lia). rewrite NA in P.
              destruct (Nat.ltb_spec x (spans A + wc_span c)) as [Ly|Ly].
              -- destruct (Nat.eqb_spec i j) as [<-|N].
                 ++ split; [|reflexivity]. intros _. eexists. split; [reflexivity|]. apply IN'. right. lia.
                 ++ split; [congruence|]. intros X. apply P in X. discriminate.
              -- split; [discriminate|]. intros (g1 & G1 & IN1). destruct (Nat.eqb_spec i j) as [<-|N].
                 ++ injection G1 as <-. apply IN' in IN1 as [IN1|IN1]; [apply P; eauto | lia].
                 ++ apply P; eauto.
          + rewrite P. destruct (Nat.eqb_spec i j) as [<-|N]; [|reflexivity]. split.
            * intros (g1 & G1 & IN1). rewrite X2 in G1. injection G1 as <-. eexists. split; [reflexivity|]. apply IN'. auto.
            * intros (g1 & [= <-] & IN1). apply IN' in IN1 as [IN1|IN1]; [eauto | lia].
        - intros j g1 G1. rewrite H' in G1. destruct (i =? j).
          + injection G1 as <-. pose proof (inv_ok _ _ I _ _ X2). unfold set_bottom. cbn [g_top g_bottom g_left g_right]. lia.
          + exact (inv_ok _ _ I _ _ G1).
        - assert (CE : forall j g1, nth_error h' j = Some g1 -> exists g0, nth_error h j = Some g0 /\ g_cell g1 = g_cell g0).
          { intros j g1 G1. rewrite H' in G1. destruct (Nat.eqb_spec i j) as [<-|N]; [|eauto]. injection G1 as <-. exists g. auto. }
          intros r x j g1 AT1 G1. destruct (CE j g1 G1) as (g0 & G0 & ->). rewrite at_snoc in AT1.
          pose proof (inv_shown _ _ I r x j g0) as SH. rewrite at_snoc in SH.
          destruct (Nat.eqb_spec r (List.length m)) as [->|Nr]; [|exact (SH AT1 G0)].
          unfold acc' in AT1. rewrite nth_acc, L in AT1. destruct (Nat.ltb_spec x (spans A)); [exact (SH AT1 G0)|].
          destruct (Nat.ltb_spec x (spans A + wc_span c)); [|discriminate]. injection AT1 as <-. rewrite X2 in G0. injection G0 as <-.
          rewrite Ln. apply (sh_above rows n row x (spans A) c); [rewrite <- Ln; exact NR | exact B | lia | exact C|].
          assert (ATn : at_pos (m ++ [acc]) n x = Some i).
          { apply (inv_pos _ _ I). exists g. split; [exact X2|]. pose proof (proj1 (inv_pos _ _ I _ _ _) AT) as (g2 & G2 & [T1 T2]).
            rewrite X2 in G2. injection G2 as <-. unfold inside. lia. }
          exact (inv_shown _ _ I _ _ _ _ ATn X2).
        - intros j g1 G1. rewrite H' in G1. destruct (i =? j).
          + injection G1 as <-. destruct (inv_origin _ _ I _ _ X2) as (r & rw & x & d & O). exists r, rw, x, d. unfold g_colspan, set_bottom in *. cbn [g_top g_left g_right g_cell] in *. exact O.
          + exact (inv_origin _ _ I _ _ G1). }
      destruct (IH (A ++ [c]) h' acc' E') as (h2 & acc2 & N2 & I2 & LR2 & EX2 & L2).
      * unfold acc'. rewrite app_length, repeat_length, spans_app, L. cbn. lia.
      * exact I'.
      * intros x d Bd. apply begins_snoc in Bd as [Bd|[-> ->]].
        -- exact (LR_ext A acc _ h h' LRA EX x d Bd).
        -- exists i, (set_bottom (Z.of_nat (List.length m)) g). rewrite H', Nat.eqb_refl. unfold acc'. rewrite nth_acc, L.
           destruct (Nat.ltb_spec (spans A) (spans A)); [lia|]. destruct (Nat.ltb_spec (spans A) (spans A + wc_span c)); [|lia].
           unfold set_bottom. cbn [g_left g_right]. rewrite <- W. auto.
      * intros ar Har x d Bd. rewrite <- (app_nil_r ar). exact (LR_ext up ar [] h h' (LRU ar Har) EX x d Bd).
      * exists h2, acc2. split; [rewrite <- Ea; exact N2|]. split; [exact I2|]. split; [exact LR2|]. split; [exact (ext_trans _ _ _ EX EX2) | exact L2].
    + rewrite L.
      set (g := mkG (wc_tc c) (Z.of_nat (List.length m)) (Z.of_nat (List.length m)) (Z.of_nat (spans A)) (Z.of_nat (spans A) + Z.of_nat (wc_span c) - 1)%Z).
      set (i := List.length h). set (h' := h ++ [g]). set (acc' := acc ++ repeat i (wc_span c)).
      assert (H' : forall j, nth_error h' j = if i =? j then Some g else nth_error h j).
      { intros j. unfold h'. destruct (Nat.eqb_spec i j) as [<-|N].
        - unfold i. rewrite nth_error_app2, Nat.sub_diag by lia. reflexivity.
        - destruct (Nat.lt_ge_cases j (List.length h)); [apply nth_error_app1; assumption|]. unfold i in N.
          assert (nth_error h j = None) as -> by (apply nth_error_None; lia). apply nth_error_None. rewrite app_length. cbn. lia. }
      assert (NONE : nth_error h i = None) by (apply nth_error_None; unfold i; lia).
      assert (EX : ext h h') by apply ext_app.
      assert (ING : forall r x, inside r x g <-> r = List.length m /\ (spans A <= x < spans A + wc_span c)).
      { intros r x. unfold inside, g. cbn [g_top g_bottom g_left g_right]. lia. }
      assert (I' : INV h' (m ++ [acc'])).
      { split.
        - intros r x j. rewrite at_snoc. unfold acc'. rewrite nth_acc, L.
          pose proof (inv_pos _ _ I r x j) as P. rewrite at_snoc in P. rewrite H'.
          destruct (Nat.eqb_spec i j) as [<-|N].
          + rewrite NONE in P.
            assert (P' : (if r =? List.length m then nth_error acc x else at_pos m r x) <> Some i).
            { intros X. apply P in X as (? & ? & _). discriminate. }
            destruct (Nat.eqb_spec r (List.length m)) as [->|Nr].
            * destruct (Nat.ltb_spec x (spans A)) as [Lx|Lx].
              -- split; [contradiction|]. intros (g1 & [= <-] & IN1). apply ING in IN1. lia.
              -- destruct (Nat.ltb_spec x (spans A + wc_span c)) as [Ly|Ly].
                 ++ split; [|reflexivity]. intros _. exists g. split; [reflexivity|]. apply ING. lia.
                 ++ split; [discriminate|]. intros (g1 & [= <-] & IN1). apply ING in IN1. lia.
            * split; [contradiction|]. intros (g1 & [= <-] & IN1). apply ING in IN1. lia.
          + rewrite <- P. destruct (Nat.eqb_spec r (List.length m)) as [->|Nr]; [|reflexivity].
            destruct (Nat.ltb_spec x (spans A)) as [Lx|Lx]; [reflexivity|].
            assert (NA : nth_error acc x = None) by (apply nth_error_None; lia). rewrite NA.
            destruct (Nat.ltb_spec x (spans A + wc_span c)); split; congruence.
        - intros j g1 G1. rewrite H' in G1. destruct (i =? j); [|exact (inv_ok _ _ I _ _ G1)].
          injection G1 as <-. unfold g. cbn [g_top g_bottom g_left g_right]. lia.
        - intros r x j g1 AT1 G1. rewrite at_snoc in AT1. rewrite H' in G1.
          pose proof (inv_shown _ _ I r x j) as SH. rewrite at_snoc in SH.
          destruct (Nat.eqb_spec i j) as [<-|N].
          + injection G1 as <-. assert (P' : (if r =? List.length m then nth_error acc x else at_pos m r x) <> Some i).
            { intros X. pose proof (inv_pos _ _ I r x i) as P. rewrite at_snoc in P. apply P in X as (? & ? & _). congruence. }
            destruct (Nat.eqb_spec r (List.length m)) as [->|Nr]; [|contradiction].
            unfold acc' in AT1. rewrite nth_acc, L in AT1. destruct (Nat.ltb_spec x (spans A)); [contradiction|].
            destruct (Nat.ltb_spec x (spans A + wc_span c)); [|discriminate].
            apply (sh_own rows _ row x (spans A) c); [exact NR | exact B | lia | exact C].
          + destruct (Nat.eqb_spec r (List.length m)) as [->|Nr]; [|exact (SH g1 AT1 G1)].
            unfold acc' in AT1. rewrite nth_acc, L in AT1. destruct (Nat.ltb_spec x (spans A)); [exact (SH g1 AT1 G1)|].
            destruct (Nat.ltb_spec x (spans A + wc_span c)); [|discriminate]. congruence.
        - intros j g1 G1. rewrite H' in G1. destruct (i =? j); [|exact (inv_origin _ _ I _ _ G1)].
          injection G1 as <-. exists (List.length m), row, (spans A), c. unfold g, g_colspan. cbn [g_top g_left g_right g_cell].
          repeat split; auto. lia. }
      destruct (IH (A ++ [c]) h' acc' E') as (h2 & acc2 & N2 & I2 & LR2 & EX2 & L2).
      * unfold acc'. rewrite app_length, repeat_length, spans_app, L. cbn. lia.
      * exact I'.
      * intros x d Bd. apply begins_snoc in Bd as [Bd|[-> ->]].
        -- exact (LR_ext A acc _ h h' LRA EX x d Bd).
        -- exists i, g. rewrite H', Nat.eqb_refl. unfold acc'. rewrite nth_acc, L.
           destruct (Nat.ltb_spec (spans A) (spans A)); [lia|]. destruct (Nat.ltb_spec (spans A) (spans A + wc_span c)); [|lia]. auto.
      * intros ar Har x d Bd. rewrite <- (app_nil_r ar). exact (LR_ext up ar [] h h' (LRU ar Har) EX x d Bd).
      * exists h2, acc2. split; [exact N2|]. split; [exact I2|]. split; [exact LR2|]. split; [exact (ext_trans _ _ _ EX EX2) | exact L2].
Qed.

Lemma INV_newrow h m : INV h m -> (forall i g, nth_error h i = Some g -> True) -> INV h (m ++ [[]]).
Proof.
  intros I _. assert (E : forall r x, at_pos (m ++ [[]]) r x = at_pos m r x).
  { intros r x. rewrite at_snoc. destruct (Nat.eqb_spec r (List.length m)) as [->|]; [|reflexivity]. rewrite at_beyond by lia. destruct x; reflexivity. }
  split; [intros r x i; rewrite E; apply (inv_pos _ _ I) | apply (inv_ok _ _ I) | intros r x i g; rewrite E; apply (inv_shown _ _ I) | apply (inv_origin _ _ I)].
Qed.

Lemma nrows_aligned : aligned rows -> Forall (Forall (fun c => 1 <= wc_span c)) rows ->
  forall todo done h m, rows = done ++ todo -> List.length m = List.length done -> INV h m ->
  (forall up arow, last_row done = Some up -> last_row m = Some arow -> LR up arow h) ->
  Forall2 (fun row ids => List.length ids = spans row) done m ->
  exists h' m', nrows todo h m = Some (h', m') /\ INV h' m' /\ Forall2 (fun row ids => List.length ids = spans row) rows m'.
Proof.
  intros AL POS. induction todo as [|row todo IH]; intros done h m E L I LRU F.
  - exists h, m. split; [reflexivity|]. split; [exact I|]. rewrite E, app_nil_r. exact F.
  - cbn [nrows].
    assert (NR : nth_error rows (List.length m) = Some row).
    { rewrite E, L, nth_error_app2, Nat.sub_diag by lia. reflexivity. }
    assert (PR : Forall (fun c => 1 <= wc_span c) row) by (rewrite E in POS; apply Forall_app in POS as [_ POS]; apply Forall_inv in POS; exact POS).
    set (up := match last_row done with Some u => u | None => [] end).
    destruct (nrow_aligned row m up (last_row m) NR PR eq_refl) with (cs := row) (A := @nil wcell) (h := h) (acc := @nil nat)
      as (h' & cells & N' & I' & LR' & EX' & L'); try reflexivity.
    + intros x c B C. destruct (AL _ _ _ _ NR B C) as (r' & u & c' & Er & Nu & Bu & W).
      assert (U : last_row done = Some u).
      { apply last_row_nth. exists r'. split; [lia|]. rewrite E, nth_error_app1 in Nu by lia. exact Nu. }
      assert (exists arow, last_row m = Some arow) as (arow & A).
      { destruct m as [|a0 m0] using rev_ind; [cbn in Er; discriminate|]. rewrite last_row_snoc. eauto. }
      exists arow, c'. unfold up. rewrite U. auto.
    + apply INV_newrow; auto.
    + intros x c (P & Q & X & _). destruct P; discriminate.
    + intros arow A. unfold up. destruct (last_row done) as [u|] eqn:U; [exact (LRU u arow eq_refl A)|].
      intros x c (P & Q & X & _). destruct P; discriminate.
    + rewrite N'. destruct (IH (done ++ [row]) h' (m ++ [cells])) as (h2 & m2 & N2 & R2).
      * rewrite <- app_assoc. exact E.
      * rewrite !app_length, L. reflexivity.
      * exact I'.
      * intros u arow. rewrite !last_row_snoc. intros [= <-] [= <-]. exact LR'.
      * apply Forall2_app; [exact F | constructor; [exact L' | constructor]].
      * eauto.
Qed.
End Aligned.

(** ** Whatever is accepted *)

Section Accepted.
Variable rows : list (list wcell).

(** Row [r] of the matrix: each cell of the layout has an element of the same width at all its
    positions; a new one begins there, a continuation has the one above. *)
Definition TRrow (r : nat) (row : list wcell) (m : list (list nat)) (h : heap) : Prop :=
  forall x c, begins row x c -> exists i g, (forall k, k < wc_span c -> at_pos m r (x + k) = Some i)
    /\ nth_error h i = Some g /\ g_colspan g = Z.of_nat (wc_span c)
    /\ (wc_cont c = false -> g_left g = Z.of_nat x /\ g_top g = Z.of_nat r)
    /\ (wc_cont c = true -> exists r', r = S r' /\ at_pos m r' x = Some i).

Lemma TRrow_ext r row m m' h h' : TRrow r row m h -> ext h h' -> (forall a b i, at_pos m a b = Some i -> at_pos m' a b = Some i) -> TRrow r row m' h'.
Proof.
  intros T E M x c B. destruct (T x c B) as (i & g & X1 & X2 & X3 & X4 & X5). destruct (E i g X2) as (g' & Y & S).
  exists i, g'. split; [intros k K; apply M, X1, K|]. split; [exact Y|]. split; [rewrite (colspan_same _ _ S); exact X3|].
  split; [intros C; destruct S as (_ & -> & -> & _); exact (X4 C)|]. intros C. destruct (X5 C) as (r' & -> & A). exists r'. split; [reflexivity | apply M, A].
Qed.

Lemma nrow_any m : forall cs A h acc h' acc', nrow (List.length m) (last_row m) cs h acc = Some (h', acc') ->
  Forall (fun c => 1 <= wc_span c) cs -> List.length acc = spans A -> TRrow (List.length m) A (m ++ [acc]) h ->
  TRrow (List.length m) (A ++ cs) (m ++ [acc']) h' /\ ext h h' /\ List.length acc' = spans (A ++ cs).
Proof.
  induction cs as [|c cs IH]; intros A h acc h' acc' H POS L T.
  - cbn in H. injection H as <- <-. rewrite app_nil_r. split; [exact T|]. split; [apply ext_refl | exact L].
  - cbn [nrow] in H. inversion POS as [|? ? SP POS']; subst.
    match type of H with match ?y with _ => _ end = _ => destruct y as [[h1 i]|] eqn:S; [|discriminate] end.
    assert (EX : ext h h1).
    { destruct (wc_cont c).
      - destruct (last_row m) as [a|]; [|discriminate]. destruct (nth_error a _) as [j|]; [|discriminate].
        destruct (nth_error h j) as [g|]; [|discriminate]. destruct (_ =? _)%Z; [|discriminate]. injection S as <- <-. apply ext_update.
      - injection S as <- <-. apply ext_app. }
    destruct (IH (A ++ [c]) h1 (acc ++ repeat i (wc_span c)) h' acc' H POS') as (T2 & EX2 & L2).
    + rewrite app_length, repeat_length, spans_app, L. cbn. lia.
    + intros x d B. apply begins_snoc in B as [B|[-> ->]].
      * apply (TRrow_ext _ _ _ (m ++ [acc ++ repeat i (wc_span c)]) h h1 T EX); [|exact B]. intros a b j. rewrite !at_snoc.
        destruct (a =? List.length m); [|auto]. intros J. rewrite nth_error_app1; [exact J | apply nth_error_Some; congruence].
      * assert (POSN : forall k, k < wc_span c -> at_pos (m ++ [acc ++ repeat i (wc_span c)]) (List.length m) (spans A + k) = Some i).
        { intros k K. rewrite at_snoc, Nat.eqb_refl, nth_acc, L. destruct (Nat.ltb_spec (spans A + k) (spans A)); [lia|].
          destruct (Nat.ltb_spec (spans A + k) (spans A + wc_span c)); [reflexivity | lia]. }
        destruct (wc_cont c).
        -- destruct (last_row m) as [a|] eqn:LA; [|discriminate]. destruct (nth_error a (List.length acc)) as [j|] eqn:J; [|discriminate].
           destruct (nth_error h j) as [g|] eqn:G; [|discriminate]. destruct (Z.eqb_spec (Z.of_nat (wc_span c)) (g_colspan g)) as [CE|]; [|discriminate].
           injection S as <- <-. apply last_row_nth in LA as (n & Ln & Nn).
           exists j, (set_bottom (Z.of_nat (List.length m)) g). split; [exact POSN|]. rewrite nth_update, Nat.eqb_refl, G. split; [reflexivity|].
           split; [unfold g_colspan in *; cbn; lia|]. split; [discriminate|]. intros _. exists n. split; [exact Ln|].
           rewrite at_snoc. destruct (Nat.eqb_spec n (List.length m)); [lia|]. unfold at_pos. rewrite Nn, <- L. exact J.
        -- injection S as <- <-. eexists _, _. split; [exact POSN|]. rewrite nth_error_app2, Nat.sub_diag by lia. split; [reflexivity|].
           unfold g_colspan. cbn [g_left g_right]. split; [lia|]. split; [intros _; rewrite L; split; reflexivity | discriminate].
    + rewrite <- app_assoc in T2, L2. split; [exact T2|]. split; [exact (ext_trans _ _ _ EX EX2) | exact L2].
Qed.

Lemma nrows_any : forall todo done h m h' m', nrows todo h m = Some (h', m') -> Forall (Forall (fun c => 1 <= wc_span c)) todo ->
  Forall2 (fun row ids => List.length ids = spans row) done m ->
  (forall r row, nth_error done r = Some row -> TRrow r row m h) ->
  Forall2 (fun row ids => List.length ids = spans row) (done ++ todo) m'
  /\ (forall r row, nth_error (done ++ todo) r = Some row -> TRrow r row m' h').
Proof.
  induction todo as [|row todo IH]; intros done h m h' m' H POS F T.
  - cbn in H. injection H as <- <-. rewrite app_nil_r. auto.
  - cbn [nrows] in H. inversion POS as [|? ? PR POS']; subst.
    destruct (nrow (List.length m) (last_row m) row h []) as [[h1 cells]|] eqn:N; [|discriminate].
    destruct (nrow_any m row [] h [] h1 cells N PR eq_refl) as (T1 & EX & L1).
    { intros x c (P & Q & X & _). destruct P; discriminate. }
    cbn [app] in T1, L1. pose proof (Forall2_length _ _ _ F) as LD.
    replace (done ++ row :: todo) with ((done ++ [row]) ++ todo) by (rewrite <- app_assoc; reflexivity).
    apply (IH _ _ _ _ _ H POS').
    + apply Forall2_app; [exact F | constructor; [exact L1 | constructor]].
    + intros r rw NR. destruct (Nat.lt_ge_cases r (List.length done)) as [Lr|Lr].
      * rewrite nth_error_app1 in NR by exact Lr. apply (TRrow_ext r rw m _ h h1 (T r rw NR) EX). intros a b i A.
        rewrite at_snoc. destruct (Nat.eqb_spec a (List.length m)) as [->|]; [rewrite at_beyond in A by lia; discriminate | exact A].
      * rewrite nth_error_app2 in NR by exact Lr. destruct (r - List.length done) as [|k] eqn:D; [|cbn in NR; destruct k; discriminate].
        cbn in NR. injection NR as <-. assert (r = List.length m) as -> by lia. exact T1.
Qed.
End Accepted.

(** ** The grid *)

Definition matrix_of (h : heap) (m : list (list nat)) : list (list (nat * gcell)) :=
  map (flat_map (fun i => match nth_error h i with Some g => [(i, g)] | None => [] end)) m.

Lemma grid_layout tbl rows : layout tbl rows ->
  match nrows rows [] [] with
  | Some (h, m) => grid tbl = DOk (matrix_of h m)
  | None => exists e, grid tbl = DErr e
  end.
Proof.
  intros H. pose proof (grid_rows_nrows _ _ H [] []) as G. cbn [List.length] in G. change (Z.of_nat 0) with 0%Z in G. unfold grid.
  destruct (nrows rows [] []) as [[h m]|]; cbn [agrees] in G.
  - rewrite G. reflexivity.
  - destruct G as (e & ->). cbn. eauto.
Qed.

Lemma at_matrix h m r x : (forall i, In i (List.concat m) -> nth_error h i <> None) ->
  at_pos (matrix_of h m) r x = match at_pos m r x with Some i => match nth_error h i with Some g => Some (i, g) | None => None end | None => None end.
Proof.
  intros V. unfold at_pos, matrix_of. rewrite nth_error_map. destruct (nth_error m r) as [row|] eqn:R; [|reflexivity]. cbn [option_map].
  assert (V' : forall i, In i row -> nth_error h i <> None) by (intros i I; apply V, in_concat; exists row; split; [eapply nth_error_In; exact R | exact I]).
  clear V R. revert x. induction row as [|i row IH]; intros x; [destruct x; reflexivity|].
  cbn [flat_map]. assert (nth_error h i <> None) as Hi by (apply V'; left; reflexivity). destruct (nth_error h i) as [g|] eqn:G; [|congruence].
  cbn [app]. destruct x as [|x]; cbn [nth_error]; [rewrite G; reflexivity|]. apply IH. intros j J. apply V'. right. exact J.
Qed.

Lemma layout_pos tbl rows : layout tbl rows -> Forall (Forall (fun c => 1 <= wc_span c)) rows.
Proof.
  unfold layout. induction 1 as [|tr cs trs rows H _ IH]; constructor; [|exact IH].
  clear IH. induction H as [|tc c tcs cs (_ & S & _) _ IH]; constructor; assumption.
Qed.

Lemma pos_in {A} (m : list (list A)) i : In i (List.concat m) -> exists r x, at_pos m r x = Some i.
Proof.
  intros H. apply in_concat in H as (row & R & X). apply In_nth_error in R as (r & R), X as (x & X). exists r, x. unfold at_pos. rewrite R. exact X.
Qed.

Lemma accepted_facts rows h m : Forall (Forall (fun c => 1 <= wc_span c)) rows -> nrows rows [] [] = Some (h, m) ->
  Forall2 (fun row ids => List.length ids = spans row) rows m
  /\ (forall r row, nth_error rows r = Some row -> TRrow r row m h)
  /\ (forall r x, (exists i, at_pos m r x = Some i) <-> exists row, nth_error rows r = Some row /\ x < spans row)
  /\ (forall i, In i (List.concat m) -> nth_error h i <> None).
Proof.
  intros POS H. destruct (nrows_any rows [] [] [] h m H POS (Forall2_nil _)) as (F & T); [intros [|r] row; discriminate|]. cbn [app] in F, T.
  assert (AT : forall r x, (exists i, at_pos m r x = Some i) <-> exists row, nth_error rows r = Some row /\ x < spans row).
  { intros r x. unfold at_pos. clear T H POS h. revert r. induction F as [|row ids rows m L _ IH]; intros [|r]; cbn [nth_error].
    - split; [intros (i & E); discriminate | intros (rw & E & _); discriminate].
    - split; [intros (i & E); discriminate | intros (rw & E & _); discriminate].
    - split.
      + intros (i & E). exists row. split; [reflexivity|]. rewrite <- L. apply nth_error_Some. congruence.
      + intros (rw & [= <-] & X). rewrite <- L in X. apply nth_error_Some in X. destruct (nth_error ids x); [eauto | congruence].
    - apply IH. }
  split; [exact F|]. split; [exact T|]. split; [exact AT|].
  intros i I. apply pos_in in I as (r & x & P). destruct (proj1 (AT r x) (ex_intro _ i P)) as (row & R & X).
  assert (PR : Forall (fun c => 1 <= wc_span c) row) by (rewrite Forall_forall in POS; apply POS; eapply nth_error_In; exact R).
  destruct (covering row x PR X) as (y & c & B & Y). destruct (T r row R y c B) as (j & g & K & G & _).
  specialize (K (x - y) ltac:(lia)). replace (y + (x - y)) with x in K by lia. congruence.
Qed.

Theorem grid_aligned tbl rows : layout tbl rows -> aligned rows ->
  exists h m, grid tbl = DOk (matrix_of h m) /\ nrows rows [] [] = Some (h, m) /\ INV rows h m
    /\ (forall r x i g, at_pos (matrix_of h m) r x = Some (i, g) <-> at_pos m r x = Some i /\ nth_error h i = Some g).
Proof.
  intros LY AL. pose proof (layout_pos _ _ LY) as POS.
  destruct (nrows_aligned rows AL POS rows [] [] []) as (h & m & N & I & F); try reflexivity.
  - split; [|intros [|i]; discriminate|intros [|r] x i g; discriminate|intros [|i]; discriminate].
    intros r x i. split; [destruct r; discriminate | intros (g & G & _); destruct i; discriminate].
  - intros up arow. discriminate.
  - constructor.
  - exists h, m. pose proof (grid_layout _ _ LY) as G. rewrite N in G. split; [exact G|]. split; [exact N|]. split; [exact I|].
    destruct (accepted_facts rows h m POS N) as (_ & _ & _ & V). intros r x i g. rewrite (at_matrix h m r x V).
    destruct (at_pos m r x) as [j|]; [|split; [discriminate | intros [X _]; discriminate]].
    destruct (nth_error h j) as [g'|] eqn:G'.
    + split; [intros [= <- <-]; auto|]. intros [[= <-] X]. congruence.
    + split; [discriminate|]. intros [[= <-] X]. congruence.
Qed.

Theorem grid_rectangular_aligned tbl rows m : layout tbl rows -> grid tbl = DOk m -> rectangular m -> aligned rows.
Proof.
  intros LY G RE. pose proof (layout_pos _ _ LY) as POS. pose proof (grid_layout _ _ LY) as GL.
  destruct (nrows rows [] []) as [[h mm]|] eqn:N; [|destruct GL as (e & GL); congruence].
  rewrite G in GL. injection GL as ->. destruct (accepted_facts rows h mm POS N) as (F & T & AT & V).
  assert (RE' : forall r x i g, at_pos mm r x = Some i -> nth_error h i = Some g -> forall r' x', at_pos mm r' x' = Some i -> inside r' x' g).
  { intros r x i g P Hg r' x' P'. apply (RE r x i g); rewrite at_matrix by exact V; [rewrite P | rewrite P']; rewrite Hg; reflexivity. }
  intros r row x c R B C. destruct (T r row R x c B) as (i & g & K & Hg & CS & _ & UP). destruct (UP C) as (r' & -> & AU).
  assert (SP : forall rr rw y d, nth_error rows rr = Some rw -> begins rw y d -> 1 <= wc_span d).
  { intros rr rw y d Hr (P & Q & -> & _). rewrite Forall_forall in POS. specialize (POS _ (nth_error_In _ _ Hr)).
    apply Forall_app in POS as [_ POS]. apply Forall_inv in POS. exact POS. }
  pose proof (SP _ _ _ _ R B) as SPc.
  assert (IN1 := RE' _ _ _ _ AU Hg _ _ (K 0 ltac:(lia))). assert (IN2 := RE' _ _ _ _ AU Hg _ _ (K (wc_span c - 1) ltac:(lia))).
  destruct (proj1 (AT r' x) (ex_intro _ i AU)) as (up & U & X).
  assert (PU : Forall (fun c => 1 <= wc_span c) up) by (rewrite Forall_forall in POS; apply POS; eapply nth_error_In; exact U).
  destruct (covering up x PU X) as (y & c' & B' & Y). destruct (T r' up U y c' B') as (i' & g' & K' & Hg' & CS' & _ & _).
  assert (i' = i) as ->. { specialize (K' (x - y) ltac:(lia)). replace (y + (x - y)) with x in K' by lia. congruence. }
  rewrite Hg in Hg'. injection Hg' as <-.
  pose proof (SP _ _ _ _ U B') as SPc'.
  assert (IN3 := RE' _ _ _ _ AU Hg _ _ (K' 0 ltac:(lia))). assert (IN4 := RE' _ _ _ _ AU Hg _ _ (K' (wc_span c' - 1) ltac:(lia))).
  exists r', up, c'. split; [reflexivity|]. split; [exact U|].
  unfold inside, g_colspan in *. assert (x = y) as -> by lia. split; [exact B' | lia].
Qed.
