(** Properties of the layout of docx tables: C41. *)
From Coq Require Import NArith ZArith List Bool String Lia ZifyBool ZifyNat.
From Verif Require Import PyStr Docx SpecGrid GridProofs.
Import ListNotations.
Local Open Scope string_scope.
Local Open Scope list_scope.
Local Open Scope nat_scope.

Lemma aligned_rectangular tbl rows : layout tbl rows -> aligned rows -> exists m, grid tbl = DOk m /\ rectangular m.
Proof.
  intros LY AL. destruct (grid_aligned tbl rows LY AL) as (h & m & G & _ & I & AT).
  exists (matrix_of h m). split; [exact G|]. intros r x i g P r' x'. apply AT in P as [P Hg]. rewrite AT. split.
  - intros IN. split; [apply (inv_pos _ _ _ I); eauto | exact Hg].
  - intros [P' _]. apply (inv_pos _ _ _ I) in P' as (g' & G' & IN). congruence.
Qed.

(** A table is accepted with every element at exactly the positions inside its extent if and
    only if every continued cell stands under a cell with the same left edge and width. *)
Theorem C41_rectangles tbl rows : layout tbl rows ->
  (aligned rows <-> exists m, grid tbl = DOk m /\ rectangular m).
Proof.
  intros LY. split; [apply aligned_rectangular; exact LY|]. intros (m & G & R). exact (grid_rectangular_aligned tbl rows m LY G R).
Qed.

(** Then the grid has an element at exactly the positions of the layout, the one that is shown
    there; an element's left upper corner is where its w:tc begins, and it is as wide as that. *)
Theorem C41_positions tbl rows m : layout tbl rows -> aligned rows -> grid tbl = DOk m ->
  (forall r x, (exists e, at_pos m r x = Some e) <-> exists row, nth_error rows r = Some row /\ x < list_sum (map wc_span row))
  /\ (forall r x i g, at_pos m r x = Some (i, g) ->
        shown_at rows r x (g_cell g)
        /\ exists r0 row x0 c, g_top g = Z.of_nat r0 /\ g_left g = Z.of_nat x0
             /\ nth_error rows r0 = Some row /\ begins row x0 c /\ wc_tc c = g_cell g /\ wc_cont c = false
             /\ g_colspan g = Z.of_nat (wc_span c)).
Proof.
  intros LY AL GM. destruct (grid_aligned tbl rows LY AL) as (h & mm & G & N & I & AT). rewrite GM in G. injection G as ->.
  destruct (accepted_facts rows h mm (layout_pos _ _ LY) N) as (_ & _ & POS & _). split.
  - intros r x. rewrite <- (POS r x). split.
    + intros ([i g] & E). apply AT in E as [E _]. eauto.
    + intros (i & E). pose proof (proj1 (inv_pos _ _ _ I _ _ _) E) as (g & Hg & _). exists (i, g). apply AT. auto.
  - intros r x i g E. apply AT in E as [E Hg]. split; [exact (inv_shown _ _ _ I _ _ _ _ E Hg)|].
    destruct (inv_origin _ _ _ I _ _ Hg) as (r0 & row & x0 & c & O). exists r0, row, x0, c. exact O.
Qed.

(** What is shown at a position is determined by the layout. *)
Theorem C41_shown_unique rows r x a b : shown_at rows r x a -> shown_at rows r x b -> a = b.
Proof.
  intros HA. revert b. induction HA as [r row x y c R B Y C|r row x y c tc R B Y C _ IH]; intros b HB.
  - inversion HB as [? row' ? y' c' R' B' Y' C'|? row' ? y' c' ? R' B' Y' C' HB']; subst; rewrite R in R'; injection R' as <-;
      destruct (begins_det _ _ _ _ _ _ B B' Y Y') as [_ <-]; [reflexivity | congruence].
  - inversion HB as [? row' ? y' c' R' B' Y' C'|? row' ? y' c' ? R' B' Y' C' HB']; subst; rewrite R in R'; injection R' as <-;
      destruct (begins_det _ _ _ _ _ _ B B' Y Y') as [_ <-]; [congruence | exact (IH b HB')].
Qed.

Definition w_tc (i : N) (span : string) (merge : option string) : welem :=
  W i (utf8 "w:tc") [] None
    [W (i + 1) (utf8 "w:tcPr") [] None
       (W (i + 2) (utf8 "w:gridSpan") [(utf8 "w:val", utf8 span)] None []
        :: match merge with Some v => [W (i + 3) (utf8 "w:vMerge") (if string_dec v "" then [] else [(utf8 "w:val", utf8 v)]) None []] | None => [] end)].
Definition w_tr (i : N) (l : list welem) : welem := W i (utf8 "w:tr") [] None l.
Definition w_tbl (i : N) (l : list welem) : welem := W i (utf8 "w:tbl") [] None l.

(** Only the width of the cell above is checked, not its left edge: a table can be accepted
    although it is not made of rectangles. *)
Theorem C41_misaligned_refuted : exists tbl rows m, layout tbl rows /\ grid tbl = DOk m /\ ~ aligned rows /\ ~ rectangular m.
Proof.
  set (a := w_tc 10 "2" (Some "restart")). set (b := w_tc 20 "2" None). set (c := w_tc 30 "1" None). set (d := w_tc 40 "2" (Some "")).
  set (tbl := w_tbl 0 [w_tr 1 [a; b]; w_tr 2 [c; d]]).
  set (rows := [[mkWc a 2 false; mkWc b 2 false]; [mkWc c 1 false; mkWc d 2 true]]).
  set (A := mkG a 0 1 0 1). set (B := mkG b 0 0 2 3). set (C := mkG c 1 1 0 0).
  set (m := [[(0, A); (0, A); (1, B); (1, B)]; [(2, C); (0, A); (0, A)]]).
  assert (LY : layout tbl rows).
  { wlayout. }
  assert (G : grid tbl = DOk m) by (vm_compute; reflexivity).
  assert (NR : ~ rectangular m).
  { intros R. pose proof (proj1 (R 0 0 0 A eq_refl 1 0)) as X. assert (inside 1 0 A) as Y by (unfold inside; cbn; lia). apply X in Y. discriminate. }
  exists tbl, rows, m. split; [exact LY|]. split; [exact G|]. split; [|exact NR].
  intros AL. apply (proj1 (C41_rectangles tbl rows LY)) in AL as (m' & G' & R'). rewrite G in G'. injection G' as <-. contradiction.
Qed.
Print Assumptions C41_rectangles.
Print Assumptions C41_positions.
Print Assumptions C41_shown_unique.
Print Assumptions C41_misaligned_refuted.

(** A table with merged cells that is aligned. *)
Definition ok_tbl : welem :=
  w_tbl 0 [w_tr 1 [w_tc 10 "2" (Some "restart"); w_tc 20 "1" None]; w_tr 2 [w_tc 30 "2" (Some ""); w_tc 40 "1" (Some "restart")];
           w_tr 3 [w_tc 50 "1" None; w_tc 60 "1" None; w_tc 70 "1" (Some "")]].
Definition ok_rows : list (list wcell) :=
  [[mkWc (w_tc 10 "2" (Some "restart")) 2 false; mkWc (w_tc 20 "1" None) 1 false];
   [mkWc (w_tc 30 "2" (Some "")) 2 true; mkWc (w_tc 40 "1" (Some "restart")) 1 false];
   [mkWc (w_tc 50 "1" None) 1 false; mkWc (w_tc 60 "1" None) 1 false; mkWc (w_tc 70 "1" (Some "")) 1 true]].
Example C41_ex : layout ok_tbl ok_rows
  /\ match grid ok_tbl with
     | DOk m => map (map (fun e => (w_id (g_cell (snd e)), g_colspan (snd e), g_rowspan (snd e)))) m
         = [[(10%N, 2%Z, 2%Z); (10%N, 2%Z, 2%Z); (20%N, 1%Z, 1%Z)]; [(10%N, 2%Z, 2%Z); (10%N, 2%Z, 2%Z); (40%N, 1%Z, 2%Z)];
            [(50%N, 1%Z, 1%Z); (60%N, 1%Z, 1%Z); (40%N, 1%Z, 2%Z)]]
     | _ => False
     end.
Proof.
  split; [|vm_compute; reflexivity].
  wlayout.
Qed.
