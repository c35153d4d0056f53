(** The table written for a docx table writes down a tiling. *)
From Coq Require Import NArith ZArith List Bool String Lia ZifyBool ZifyNat ZifyN Sorting.Sorted Permutation.
From Verif Require Import PyStr PyStrFacts SpecText RangeProofs Xml RowIter Docx Render SpecRows SpecFmt SpecGrid SpecHtml GridProofs TableHtml.
Import ListNotations.
Local Open Scope string_scope.
Local Open Scope list_scope.
Local Open Scope nat_scope.

(** ** Sorting cells by column, stably *)

Fixpoint insert (a : cell) (l : list cell) : list cell :=
  match l with
  | [] => [a]
  | b :: r => if (c_col a <=? c_col b)%Z then a :: l else b :: insert a r
  end.
Definition by_col (l : list cell) : list cell := fold_right insert [] l.
Definition sorted (l : list cell) : Prop := StronglySorted (fun p q => (c_col p <= c_col q)%Z) l.

Lemma insert_perm a l : Permutation (insert a l) (a :: l).
Proof.
  induction l as [|b l IH]; cbn [insert]; [reflexivity|]. destruct (_ <=? _)%Z; [reflexivity|].
  rewrite IH. apply perm_swap.
Qed.
Lemma by_col_perm l : Permutation (by_col l) l.
Proof. induction l as [|a l IH]; cbn; [reflexivity|]. rewrite insert_perm, IH. reflexivity. Qed.
Lemma insert_sorted a l : sorted l -> sorted (insert a l).
Proof.
  unfold sorted. induction 1 as [|b l S IH F]; cbn [insert]; [repeat constructor|]. destruct (Z.leb_spec (c_col a) (c_col b)).
  - constructor; [constructor; assumption|]. constructor; [assumption|]. eapply Forall_impl; [|exact F]. cbn. intros. lia.
  - constructor; [exact IH|]. eapply Permutation_Forall; [symmetry; apply insert_perm|]. constructor; [lia | exact F].
Qed.
Lemma by_col_sorted l : sorted (by_col l).
Proof. induction l; cbn; [constructor | apply insert_sorted; assumption]. Qed.
Lemma insert_low a l : Forall (fun b => (c_col a <= c_col b)%Z) l -> insert a l = a :: l.
Proof. destruct 1 as [|b l H]; cbn [insert]; [reflexivity|]. destruct (Z.leb_spec (c_col a) (c_col b)); [reflexivity | lia]. Qed.
Lemma Forall_filter {A} (P : A -> Prop) f l : Forall P l -> Forall P (filter f l).
Proof. induction 1; cbn; [constructor|]. destruct (f x); [constructor|]; assumption. Qed.
Lemma filter_insert f a l : sorted l -> filter f (insert a l) = if f a then insert a (filter f l) else filter f l.
Proof.
  unfold sorted. induction 1 as [|b l S IH F]; cbn [insert filter]; [destruct (f a); reflexivity|].
  destruct (Z.leb_spec (c_col a) (c_col b)).
  - cbn [filter]. destruct (f a); [|reflexivity]. destruct (f b).
    + rewrite insert_low; [reflexivity|]. constructor; [assumption|]. apply Forall_filter. eapply Forall_impl; [|exact F]. cbn. intros. lia.
    + rewrite insert_low; [reflexivity|]. apply Forall_filter. eapply Forall_impl; [|exact F]. cbn. intros. lia.
  - cbn [filter]. rewrite IH. destruct (f a), (f b); try reflexivity. cbn [insert]. destruct (Z.leb_spec (c_col a) (c_col b)); [lia | reflexivity].
Qed.
Lemma filter_by_col f l : filter f (by_col l) = by_col (filter f l).
Proof.
  induction l as [|a l IH]; cbn [by_col fold_right filter]; [reflexivity|]. fold (by_col l).
  rewrite filter_insert by apply by_col_sorted. rewrite IH. destruct (f a); reflexivity.
Qed.
Lemma by_col_id l : sorted l -> by_col l = l.
Proof.
  unfold sorted. induction 1 as [|a l S IH F]; cbn [by_col fold_right]; [reflexivity|]. fold (by_col l). rewrite IH. apply insert_low. exact F.
Qed.

(** ** Small facts about lists *)

Lemma fin_choice {A} (P : nat -> A -> Prop) : forall n k, (forall j, k <= j < k + n -> exists y, P j y) ->
  exists l, List.length l = n /\ forall j y, nth_error l j = Some y -> P (k + j) y.
Proof.
  induction n as [|n IH]; intros k H; [exists []; split; [reflexivity | intros [|j]; discriminate]|].
  destruct (H k ltac:(lia)) as (y & Y). destruct (IH (S k)) as (l & L & Q); [intros j J; apply H; lia|].
  exists (y :: l). split; [cbn; congruence|]. intros [|j] z E; [injection E as <-; rewrite Nat.add_0_r; exact Y|].
  cbn in E. replace (k + S j) with (S k + j) by lia. exact (Q j z E).
Qed.
Lemma Forall2_choice {A B C} (P : A -> B -> C -> Prop) l l' : Forall2 (fun a b => exists c, P a b c) l l' ->
  exists cs, Forall2 (fun a c => exists b, P a b c) l cs /\ Forall2 (fun b c => exists a, P a b c) l' cs.
Proof.
  induction 1 as [|a b l l' (c & H) _ (cs & F1 & F2)]; [exists []; split; constructor|].
  exists (c :: cs). split; constructor; eauto.
Qed.
Lemma filter_one {A} (f : A -> bool) l p : NoDup l -> In p l -> f p = true -> (forall q, In q l -> f q = true -> q = p) -> filter f l = [p].
Proof.
  intros ND I F U. induction ND as [|a l NI ND IH]; [destruct I|]. cbn [filter].
  destruct I as [<-|I].
  - rewrite F. f_equal. clear IH ND. induction l as [|b l IH]; [reflexivity|]. cbn [filter]. destruct (f b) eqn:B.
    + exfalso. apply NI. left. symmetry. symmetry. apply U; [right; left; reflexivity | exact B].
    + apply IH; [intros X; apply NI; right; exact X|]. intros q [Hq|Hq]; apply U; [left; exact Hq | right; right; exact Hq].
  - destruct (f a) eqn:B; [exfalso; apply NI; rewrite (U a (or_introl eq_refl) B); exact I|]. apply IH; [exact I|]. intros q Hq. apply U. right. exact Hq.
Qed.
Lemma strict_unique (a b : list Z) : StronglySorted Z.lt a -> StronglySorted Z.lt b -> (forall x, In x a <-> In x b) -> a = b.
Proof.
  intros A. revert b. induction A as [|x a SA IH FA]; intros b B E.
  - destruct b as [|y b]; [reflexivity|]. destruct (proj2 (E y) (or_introl eq_refl)).
  - destruct B as [|y b SB FB]; [destruct (proj1 (E x) (or_introl eq_refl))|].
    rewrite Forall_forall in FA, FB. assert (x = y) as ->.
    { destruct (proj1 (E x) (or_introl eq_refl)) as [X|X]; [congruence|]. destruct (proj2 (E y) (or_introl eq_refl)) as [Y|Y]; [congruence|].
      apply FA in Y. apply FB in X. lia. }
    f_equal. apply IH; [exact SB|]. intros z. split; intros Z.
    + destruct (proj1 (E z) (or_intror Z)) as [->|X]; [|exact X]. apply FA in Z. lia.
    + destruct (proj2 (E z) (or_intror Z)) as [->|X]; [|exact X]. apply FB in Z. lia.
Qed.

(** ** Cells of a row *)

Lemma placed_begins x row y c : In (y, c) (placed x row) <-> exists A B, row = A ++ c :: B /\ y = x + spans A.
Proof.
  revert x. induction row as [|d row IH]; intros x; cbn [placed].
  - split; [intros []|]. intros (A & B & E & _). destruct A; discriminate.
  - split.
    + intros [[= <- <-]|H]; [exists [], row; split; [reflexivity | cbn; lia]|]. apply IH in H as (A & B & -> & ->).
      exists (d :: A), B. split; [reflexivity|]. rewrite spans_cons. lia.
    + intros (A & B & E & ->). destruct A as [|d' A]; [injection E as <- <-; left; f_equal; cbn; lia|]. injection E as <- ->. right. apply IH. exists A, B. split; [reflexivity|]. rewrite spans_cons. lia.
Qed.
Lemma placed_begins0 row y c : In (y, c) (placed 0 row) <-> begins row y c.
Proof. rewrite placed_begins. unfold begins, spans. reflexivity. Qed.
Lemma own_begins row y c : In (y, c) (own_cells row) <-> begins row y c /\ wc_cont c = false.
Proof. unfold own_cells. rewrite filter_In, placed_begins0. cbn [snd]. destruct (wc_cont c); cbn; intuition discriminate. Qed.
Lemma placed_sorted x row : Forall (fun c => 1 <= wc_span c) row -> StronglySorted (fun p q => fst p < fst q) (placed x row) /\ Forall (fun p => x <= fst p) (placed x row).
Proof.
  intros F. revert x. induction F as [|c row C _ IH]; intros x; cbn [placed]; [split; constructor|].
  destruct (IH (x + wc_span c)) as [S L]. split.
  - constructor; [exact S|]. eapply Forall_impl; [|exact L]. cbn. intros. lia.
  - constructor; [cbn; lia|]. eapply Forall_impl; [|exact L]. cbn. intros. lia.
Qed.
Lemma SS_filter {A} (R : A -> A -> Prop) f l : StronglySorted R l -> StronglySorted R (filter f l).
Proof. induction 1; cbn [filter]; [constructor|]. destruct (f a); [constructor; [assumption | apply Forall_filter; assumption] | assumption]. Qed.
Lemma own_sorted row : Forall (fun c => 1 <= wc_span c) row -> StronglySorted (fun p q => fst p < fst q) (own_cells row).
Proof. intros F. apply SS_filter. apply placed_sorted. exact F. Qed.

(** ** The cells of an aligned table tile it *)

Lemma height_le rows r x a b : height rows r x a -> height rows r x b -> a <= b.
Proof.
  intros (A1 & A2 & A3) (B1 & B2 & B3). destruct (Nat.le_gt_cases a b) as [|L]; [assumption|]. exfalso. apply B3. apply A2. lia.
Qed.
Lemma height_det rows r x a b : height rows r x a -> height rows r x b -> a = b.
Proof. intros A B. pose proof (height_le _ _ _ _ _ A B). pose proof (height_le _ _ _ _ _ B A). lia. Qed.

Definition own (rows : list (list wcell)) (r x : nat) (c : wcell) : Prop :=
  exists row, nth_error rows r = Some row /\ begins row x c /\ wc_cont c = false.

Section Tile.
Variables (tbl : welem) (rows : list (list wcell)).
Hypothesis LY : layout tbl rows.
Hypothesis AL : aligned rows.

Lemma own_element : exists h m, INV rows h m
  /\ (forall r x, (exists i, at_pos m r x = Some i) <-> exists row, nth_error rows r = Some row /\ x < spans row)
  /\ (forall r row y c z, nth_error rows r = Some row -> begins row y c -> y <= z < y + wc_span c ->
        exists i g, at_pos m r z = Some i /\ at_pos m r y = Some i /\ nth_error h i = Some g /\ g_colspan g = Z.of_nat (wc_span c) /\ g_left g = Z.of_nat y
          /\ (wc_cont c = false -> g_top g = Z.of_nat r))
  /\ (forall r x c, own rows r x c -> exists i g, at_pos m r x = Some i /\ nth_error h i = Some g /\ g_top g = Z.of_nat r /\ g_left g = Z.of_nat x
        /\ g_right g = (Z.of_nat x + Z.of_nat (wc_span c) - 1)%Z /\ height rows r x (Z.to_nat (g_rowspan g)) /\ g_cell g = wc_tc c).
Proof.
  destruct (grid_aligned tbl rows LY AL) as (h & m & G & N & I & AT).
  pose proof (layout_pos _ _ LY) as POS. destruct (accepted_facts rows h m POS N) as (F & T & POSI & V).
  exists h, m. split; [exact I|]. split; [exact POSI|]. split.
  - intros r row y c z R B Z. destruct (covered rows h m I T POSI r row y c z R B Z) as (i & g & X1 & X2 & X3 & X4 & X5 & X6 & _). exists i, g. auto 10.
  - intros r x c (row & R & B & C).
    assert (SP : 1 <= wc_span c) by exact (row_pos rows POS r row x c R B).
    destruct (covered rows h m I T POSI r row x c x R B ltac:(lia)) as (i & g & X1 & _ & X3 & X4 & X5 & X6 & _). exists i, g.
    specialize (X6 C). split; [exact X1|]. split; [exact X3|]. split; [exact X6|]. split; [exact X5|]. split; [unfold g_colspan in X4; lia|].
    split; [exact (element_height rows h m r I POS T POSI x i g X1 X3 X6 X5)|].
    pose proof (inv_shown _ _ _ I _ _ _ _ X1 X3) as SH.
    inversion SH as [? row' ? y' c' R' B' Y' C'|? row' ? y' c' tc' R' B' Y' C' HB']; subst; rewrite R in R'; injection R' as <-;
      destruct (begins_det _ _ _ _ _ _ B B' ltac:(split; [apply Nat.le_refl | lia]) Y') as [_ <-]; congruence.
Qed.

Lemma tile_cover r row z : nth_error rows r = Some row -> z < spans row ->
  exists r0 x0 c0 n, own rows r0 x0 c0 /\ height rows r0 x0 n /\ r0 <= r < r0 + n /\ x0 <= z < x0 + wc_span c0.
Proof.
  intros R Z. destruct own_element as (h & m & I & AT & _ & OE).
  destruct (proj2 (AT r z) (ex_intro _ row (conj R Z))) as (i & P). apply (inv_pos _ _ _ I) in P as (g & Hg & IN).
  destruct (inv_origin _ _ _ I _ _ Hg) as (r0 & row0 & x0 & c0 & T & L & R0 & B0 & W & C0 & CS).
  assert (OW : own rows r0 x0 c0) by (exists row0; auto).
  destruct (OE _ _ _ OW) as (j & g' & P' & Hg' & T' & L' & RT' & HT' & CE').
  assert (i = j) as <-.
  { apply (inv_pos _ _ _ I) in P' as (g2 & G2 & IN2). rewrite Hg' in G2. injection G2 as <-.
    assert (at_pos m r0 x0 = Some i) as Q1 by (apply (inv_pos _ _ _ I); exists g; split; [exact Hg|]; destruct (inv_ok _ _ _ I _ _ Hg); unfold inside; lia).
    assert (at_pos m r0 x0 = Some j) as Q2 by (apply (inv_pos _ _ _ I); exists g'; split; [exact Hg' | exact IN2]). congruence. }
  rewrite Hg in Hg'. injection Hg' as <-. exists r0, x0, c0, (Z.to_nat (g_rowspan g)). split; [exact OW|]. split; [exact HT'|].
  unfold inside in IN. unfold g_rowspan. lia.
Qed.

Lemma tile_unique r z r1 x1 c1 n1 r2 x2 c2 n2 : own rows r1 x1 c1 -> height rows r1 x1 n1 -> own rows r2 x2 c2 -> height rows r2 x2 n2 ->
  r1 <= r < r1 + n1 -> x1 <= z < x1 + wc_span c1 -> r2 <= r < r2 + n2 -> x2 <= z < x2 + wc_span c2 -> r1 = r2 /\ x1 = x2.
Proof.
  intros O1 H1 O2 H2 A1 B1 A2 B2. destruct own_element as (h & m & I & AT & _ & OE).
  destruct (OE _ _ _ O1) as (i & g & P & Hg & T & L & RT & HT & _). destruct (OE _ _ _ O2) as (j & g' & P' & Hg' & T' & L' & RT' & HT' & _).
  pose proof (height_det _ _ _ _ _ H1 HT). pose proof (height_det _ _ _ _ _ H2 HT'). unfold g_rowspan in *.
  assert (at_pos m r z = Some i) as Q1 by (apply (inv_pos _ _ _ I); exists g; split; [exact Hg | unfold inside; lia]).
  assert (at_pos m r z = Some j) as Q2 by (apply (inv_pos _ _ _ I); exists g'; split; [exact Hg' | unfold inside; lia]).
  assert (i = j) as <- by congruence. rewrite Hg in Hg'. injection Hg' as <-. lia.
Qed.

(** The rows a cell reaches over have a cell of the same width at the same place, and show it. *)
Lemma tile_below r0 x0 c0 n r : own rows r0 x0 c0 -> height rows r0 x0 n -> r0 <= r < r0 + n ->
  shown_at rows r x0 (wc_tc c0) /\ exists row c, nth_error rows r = Some row /\ begins row x0 c /\ wc_span c = wc_span c0.
Proof.
  intros O H A. destruct own_element as (h & m & I & AT & CV & OE). pose proof (layout_pos _ _ LY) as POS.
  destruct (OE _ _ _ O) as (i & g & P & Hg & T & L & RT & HT & CE). pose proof (height_det _ _ _ _ _ H HT). unfold g_rowspan in *.
  assert (SP : 1 <= wc_span c0) by (destruct O as (row & R & B & _); exact (row_pos rows POS r0 row x0 c0 R B)).
  assert (at_pos m r x0 = Some i) as Q by (apply (inv_pos _ _ _ I); exists g; split; [exact Hg | unfold inside; lia]).
  split; [rewrite <- CE; exact (inv_shown _ _ _ I _ _ _ _ Q Hg)|].
  destruct (proj1 (AT r x0) (ex_intro _ i Q)) as (row & R & X).
  assert (PR : Forall (fun c => 1 <= wc_span c) row) by (rewrite Forall_forall in POS; apply POS; eapply nth_error_In; exact R).
  destruct (covering row x0 PR X) as (y & c & B & Y). destruct (CV _ _ _ _ _ R B Y) as (j & g' & Q' & _ & Hg' & CS & LF & _).
  rewrite Q in Q'. injection Q' as <-. rewrite Hg in Hg'. injection Hg' as <-. unfold g_colspan in CS.
  assert (y = x0) as -> by lia. exists row, c. split; [exact R|]. split; [exact B|]. lia.
Qed.

Lemma tile_above r row x c : nth_error rows r = Some row -> begins row x c ->
  exists r0 c0 n, own rows r0 x c0 /\ height rows r0 x n /\ r0 <= r < r0 + n /\ wc_span c0 = wc_span c.
Proof.
  intros R B. pose proof (layout_pos _ _ LY) as POS. pose proof (row_pos rows POS r row x c R B) as SP.
  destruct (tile_cover r row x R) as (r0 & x0 & c0 & n & O & H & A & X); [pose proof (begins_end _ _ _ B); lia|].
  destruct (tile_below _ _ _ _ _ O H A) as (_ & row' & c' & R' & B' & S'). rewrite R in R'. injection R' as <-.
  destruct (begins_det row x0 x c' c x B' B ltac:(lia) ltac:(lia)) as [-> ->]. exists r0, c0, n. auto.
Qed.
End Tile.
