(** C13, C14, C15: iterating the rows of a table.  The vocabulary is in SpecRows.v. *)
From Coq Require Import NArith ZArith List Bool String Lia ZifyBool Sorting.Sorted.
From Verif Require Import PyStr PyStrFacts Xml Lint RowIter SpecRows RowProofs.
Import ListNotations.
Local Open Scope list_scope.
Local Open Scope Z_scope.

(** C13: the rows of a table that writes down a tiling come out one for one, and row i shows
    exactly the cells covering row i, from left to right. *)
Theorem C13_tiling tbl R W cs :
  R = Z.of_nat (List.length (children t_tr tbl)) ->
  tiling R W cs -> (forall p, In p cs -> attributes_agree p) -> writes (children t_tr tbl) cs ->
  exists rows,
    rows_of tbl = (rows, None)
    /\ List.length rows = List.length (children t_tr tbl)
    /\ forall i tr row, nth_error (children t_tr tbl) i = Some tr -> nth_error rows i = Some row ->
         kids_of t_td row = map (shown (Z.of_nat i)) (filter (covers_row (Z.of_nat i)) cs)
         /\ e_tag row = e_tag tr /\ e_attrs row = e_attrs tr.
Proof.
  intros HR HT HA HW.
  assert (Hsel : map y_row (select_rows (e_kids tbl)) = children t_tr tbl).
  { rewrite select_rows_children. apply filter_all. intros tr Htr. apply In_nth_error in Htr as (i & Hi).
    destruct (HW i tr Hi) as (_ & _ & Hne). unfold has_cell, children. destruct (kids_of t_td tr); [congruence | reflexivity]. }
  assert (Hc : forall p, In p cs -> attributes_agree p /\ 1 <= c_w p /\ 1 <= c_h p /\ e_tag (fst (c_td p)) = t_td).
  { intros p Hp. destruct HT as (Hb & _). destruct (Hb p Hp) as (B1 & B2 & B3 & B4 & B5). repeat split; try (apply HA; exact Hp); try lia.
    destruct (nth_error (children t_tr tbl) (Z.to_nat (c_row p))) as [tr|] eqn:E.
    - destruct (HW _ _ E) as (_ & Hk & _). rewrite Z2Nat.id in Hk by lia.
      assert (In (c_td p) (kids_of t_td tr)).
      { rewrite Hk. apply in_map. apply filter_In. split; [exact Hp | unfold starts_in; lia]. }
      unfold kids_of in H. apply filter_In in H as [_ H]. apply seqb_eq in H. exact H.
    - apply nth_error_None in E. lia. }
  destruct (row_loop_tiling cs Hc (select_rows (e_kids tbl)) 0) as (ys & E & Len & Rows).
  { intros i y Hy. cbn [Z.add].
    assert (Ht : nth_error (children t_tr tbl) i = Some (y_row y)) by (rewrite <- Hsel; apply map_nth_error; exact Hy).
    destruct (HW i _ Ht) as (T1 & T2 & _). split; [apply contains_th_children; exact T1|]. split; [exact T2|].
    apply (tiling_row_abut R W); [exact HT|].
    assert (i < List.length (children t_tr tbl))%nat by (apply nth_error_Some; congruence). lia. }
  assert (E0 : map (entry 0) (filter (open_above 0) cs) = []).
  { assert (F : filter (open_above 0) cs = []); [|rewrite F; reflexivity].
    destruct HT as (Hb & _). clear -Hb. induction cs as [|p l IH]; [reflexivity|]. cbn.
    destruct (Hb p (or_introl eq_refl)) as (B1 & _). unfold open_above at 1. replace (c_row p <? 0) with false by lia.
    apply IH. intros q Hq. apply Hb. right. exact Hq. }
  rewrite E0 in E. exists (map y_row ys). split; [|split].
  - unfold rows_of, row_iter. rewrite E. reflexivity.
  - rewrite map_length, Len, <- Hsel, map_length. reflexivity.
  - intros i tr row Htr Hrow. rewrite <- Hsel in Htr.
    rewrite nth_error_map in Htr. destruct (nth_error (select_rows (e_kids tbl)) i) as [y|] eqn:Ey; [|discriminate].
    injection Htr as <-. rewrite nth_error_map in Hrow. destruct (nth_error ys i) as [y'|] eqn:Ey'; [|discriminate].
    injection Hrow as <-. apply (Rows i y y' Ey Ey').
Qed.
Print Assumptions C13_tiling.

(** The same with header rows anywhere between the rows of the tiling: header rows come out as
    they are, the others as if there were no header rows. *)
Definition no_header (tr : elem) : bool := match children t_th tr with [] => true | _ => false end.
Lemma no_header_th e : contains_th e = negb (no_header e).
Proof. unfold contains_th, no_header. destruct (children t_th e); reflexivity. Qed.

Lemma row_loop_weave ys : forall l outs,
  row_loop (filter (fun y => no_header (y_row y)) ys) l = (outs, None) ->
  exists rs, row_loop ys l = (rs, None)
    /\ (List.length outs = List.length (filter (fun y => no_header (y_row y)) ys) -> List.length rs = List.length ys)
    /\ forall r y, nth_error ys r = Some y ->
         nth_error rs r = if no_header (y_row y) then nth_error outs (List.length (filter (fun y => no_header (y_row y)) (firstn r ys))) else Some y.
Proof.
  induction ys as [|y ys IH]; intros l outs H; cbn [filter] in H.
  - cbn in H. injection H as <-. exists []. split; [reflexivity|]. split; [reflexivity|]. intros [|r]; discriminate.
  - cbn [row_loop]. rewrite (no_header_th (y_row y)). destruct (no_header (y_row y)) eqn:NH; cbn [negb].
    + cbn [row_loop] in H. rewrite (no_header_th (y_row y)), NH in H. cbn [negb] in H.
      destruct (match l with [] => Some y | _ => match sorted_row_children (y_row y) l with Some ks => Some (mkY (Elem (e_tag (y_row y)) (e_attrs (y_row y)) [] ks) []) | None => None end end) as [y'|] eqn:EY;
        [|discriminate].
      destruct (store_spans (kids_of t_td (y_row y')) 0 l) as [l'|]; [|discriminate].
      destruct (row_loop (filter (fun y => no_header (y_row y)) ys) (alst_count_decr l')) as [os e] eqn:E. injection H as <- ->.
      destruct (IH _ _ E) as (rs & -> & L & N). exists (y' :: rs). split; [reflexivity|]. split.
      * cbn [filter]. rewrite NH. cbn [List.length]. intros X. f_equal. apply L. congruence.
      * intros [|r] z Z; cbn [nth_error] in *.
        -- injection Z as <-. rewrite NH. reflexivity.
        -- cbn [firstn filter]. rewrite NH. cbn [List.length nth_error]. exact (N r z Z).
    + destruct (IH _ _ H) as (rs & -> & L & N). exists (y :: rs). split; [reflexivity|]. split.
      * cbn [filter]. rewrite NH. cbn [List.length]. intros X. f_equal. apply L. exact X.
      * intros [|r] z Z; cbn [nth_error] in *.
        -- injection Z as <-. rewrite NH. reflexivity.
        -- cbn [firstn filter]. rewrite NH. exact (N r z Z).
Qed.

Theorem C13_headers tbl W cs :
  let trs := children t_tr tbl in
  let data := filter no_header trs in
  (forall tr, In tr trs -> has_cell tr = true) ->
  tiling (Z.of_nat (List.length data)) W cs -> (forall p, In p cs -> attributes_agree p) -> writes data cs ->
  exists rows,
    rows_of tbl = (rows, None)
    /\ List.length rows = List.length trs
    /\ forall r tr row, nth_error trs r = Some tr -> nth_error rows r = Some row ->
         let i := Z.of_nat (List.length (filter no_header (firstn r trs))) in
         (no_header tr = false -> row = tr)
         /\ (no_header tr = true -> kids_of t_td row = map (shown i) (filter (covers_row i) cs) /\ e_tag row = e_tag tr /\ e_attrs row = e_attrs tr).
Proof.
  intros trs data HC HT HA HW.
  assert (Hsel : map y_row (select_rows (e_kids tbl)) = trs) by (rewrite select_rows_children; apply filter_all; exact HC).
  set (ys := select_rows (e_kids tbl)) in *.
  set (tbl' := Elem (e_tag tbl) (e_attrs tbl) [] (map (fun tr => (tr, [])) data)).
  assert (FY : forall zs, map y_row (filter (fun y => no_header (y_row y)) zs) = filter no_header (map y_row zs)).
  { induction zs as [|y zs IH]; [reflexivity|]. cbn [map filter]. destruct (no_header (y_row y)); cbn [map]; rewrite IH; reflexivity. }
  assert (CH : children t_tr tbl' = data).
  { unfold children, kids_of, tbl'. cbn [e_kids]. assert (TAG : Forall (fun tr => e_tag tr = t_tr) data).
    { apply Forall_forall. intros tr I. unfold data in I. apply filter_In in I as [I _]. unfold trs, children, kids_of in I.
      apply in_map_iff in I as (k & <- & I). apply filter_In in I as [_ I]. apply seqb_eq in I. exact I. }
    clear - TAG. induction TAG as [|tr l E _ IH]; [reflexivity|]. cbn [map filter fst]. rewrite E, seqb_refl. cbn [map fst]. f_equal. exact IH. }
  destruct (C13_tiling tbl' (Z.of_nat (List.length data)) W cs) as (rows' & RO & L' & N'); try rewrite CH; [reflexivity | exact HT | exact HA | exact HW |].
  rewrite CH in L', N'.
  assert (Hsel' : map y_row (select_rows (e_kids tbl')) = data).
  { rewrite select_rows_children, CH. apply filter_all. intros tr I. apply HC. unfold data in I. apply filter_In in I. tauto. }
  destruct (row_loop_ext (filter (fun y => no_header (y_row y)) ys) (select_rows (e_kids tbl')) []) as [X1 X2].
  { unfold same_rows. rewrite FY, Hsel, Hsel'. reflexivity. }
  unfold rows_of, row_iter in RO. destruct (row_loop (select_rows (e_kids tbl')) []) as [os e]. injection RO as EO ->. cbn [fst snd] in X1, X2.
  destruct (row_loop (filter (fun y => no_header (y_row y)) ys) []) as [outs e'] eqn:E. cbn [fst snd] in X1, X2. subst e'.
  destruct (row_loop_weave ys [] outs E) as (rs & ER & LR & NR).
  assert (LO : List.length outs = List.length data) by (rewrite <- L', <- EO, <- X1, !map_length; reflexivity).
  exists (map y_row rs). split; [unfold rows_of, row_iter; fold ys; rewrite ER; reflexivity|]. split.
  - rewrite map_length, <- Hsel, map_length. apply LR. rewrite LO. unfold data. rewrite <- Hsel, <- FY, map_length. reflexivity.
  - intros r tr row Hr Hrow. cbv zeta. rewrite <- Hsel, nth_error_map in Hr. destruct (nth_error ys r) as [y|] eqn:Y; [|discriminate]. cbn in Hr. injection Hr as <-.
    rewrite nth_error_map in Hrow. pose proof (NR r y Y) as NRr. destruct (nth_error rs r) as [y2|]; [|discriminate]. cbn in Hrow. injection Hrow as <-.
    split; intros NH; rewrite NH in NRr; [injection NRr as ->; reflexivity|].
    assert (I1 : List.length (filter (fun y => no_header (y_row y)) (firstn r ys)) = List.length (filter no_header (firstn r trs))).
    { rewrite <- (map_length y_row), FY, <- firstn_map, Hsel. reflexivity. }
    rewrite I1 in NRr. set (i := List.length (filter no_header (firstn r trs))) in *.
    assert (D : nth_error data i = Some (y_row y)).
    { unfold data. rewrite <- (firstn_skipn r trs), filter_app. rewrite nth_error_app2; fold i; [|apply Nat.le_refl]. rewrite Nat.sub_diag.
      assert (nth_error trs r = Some (y_row y)) as T by (rewrite <- Hsel, nth_error_map, Y; reflexivity).
      clear - T NH. revert r T. induction trs as [|t l IH]; intros [|r] T; try discriminate; cbn [skipn nth_error] in *; [|apply IH; exact T].
      injection T as ->. cbn [filter]. rewrite NH. reflexivity. }
    apply (N' i (y_row y) (y_row y2) D). rewrite <- EO, <- X1, nth_error_map, <- NRr. reflexivity.
Qed.
Print Assumptions C13_headers.

(** A restored cell has the content, the tag and the following text of the original. *)
Theorem C13_content r p :
  itertext (fst (shown r p)) = itertext (fst (c_td p))
  /\ e_kids (fst (shown r p)) = e_kids (fst (c_td p))
  /\ e_tag (fst (shown r p)) = e_tag (fst (c_td p))
  /\ snd (shown r p) = snd (c_td p).
Proof.
  unfold shown. destruct (starts_in r p); [repeat split|]. destruct (fst (c_td p)) as [t a x ks]. repeat split.
Qed.
Print Assumptions C13_content.

(** A tiling with row and column spans, and its table. *)
Definition sample_td (rs cspan txt : string) : kid :=
    (Elem t_td [(a_rowspan, utf8 rs); (a_colspan, utf8 cspan)] (utf8 txt) [], []).
Definition sample_cells : list cell :=
    [mkCell 0 0 2 1 (sample_td "2" "1" "a"); mkCell 2 0 1 2 (sample_td "1" "2" "e");
     mkCell 0 1 1 2 (sample_td "1" "2" "b"); mkCell 1 1 1 1 (sample_td "1" "1" "c"); mkCell 1 2 2 1 (sample_td "2" "1" "d")].
Definition sample_row (i : Z) : kid := (Elem t_tr [] [] (map c_td (filter (starts_in i) sample_cells)), []).
Definition sample_table : elem := Elem t_table [] [] [sample_row 0; sample_row 1; sample_row 2].

Example C13_sample :
  tiling 3 3 sample_cells /\ (forall p, In p sample_cells -> attributes_agree p)
  /\ writes (children t_tr sample_table) sample_cells
  /\ map (fun r => map to_text (children t_td r)) (fst (rows_of sample_table))
     = [[utf8 "a"; utf8 "b"]; [utf8 "a"; utf8 "c"; utf8 "d"]; [utf8 "e"; utf8 "d"]].
Proof.
  split; [|split; [|split]].
  - split; [|split].
    + intros p Hp. repeat (destruct Hp as [<- | Hp]; [cbn; lia|]). destruct Hp.
    + intros r c Hr Hc. assert (Er : r = 0 \/ r = 1 \/ r = 2) by lia. assert (Ec : c = 0 \/ c = 1 \/ c = 2) by lia.
      destruct Er as [-> | [-> | ->]], Ec as [-> | [-> | ->]]; eexists; reflexivity.
    + repeat constructor; cbn; lia.
  - intros p Hp. repeat (destruct Hp as [<- | Hp]; [split; reflexivity|]). destruct Hp.
  - intros [|[|[|i]]] tr Hi; cbn in Hi; try (injection Hi as <-; repeat split; discriminate).
    destruct i; discriminate.
  - vm_compute. reflexivity.
Qed.

(** C14: a header row put between the rows of any table is yielded in its place and changes
    nothing else: it does not use up a row of an open rowspan. *)
Theorem C14_header_row tag attrs text A B h tl :
  e_tag h = t_tr -> children t_th h <> [] ->
  let before := Elem tag attrs text A in
  let without := Elem tag attrs text (A ++ B) in
  let with_h := Elem tag attrs text (A ++ (h, tl) :: B) in
  (snd (rows_of before) <> None -> rows_of with_h = rows_of without)
  /\ (snd (rows_of before) = None ->
      exists ra rb, rows_of without = (ra ++ rb, snd (rows_of without))
        /\ List.length ra = List.length (filter has_cell (children t_tr before))
        /\ rows_of with_h = (ra ++ h :: rb, snd (rows_of without))).
Proof.
  intros Ht Hth before without with_h.
  assert (CT : contains_th h = true) by (unfold contains_th; destruct (children t_th h); congruence).
  set (a := select_rows A). set (b := select_rows B). set (y := mkY h B).
  assert (RO : forall ks l, map y_row (select_rows ks) = map y_row l ->
    rows_of (Elem tag attrs text ks) = (map y_row (fst (row_loop l [])), snd (row_loop l []))).
  { intros ks l E. destruct (row_loop_ext (select_rows ks) l [] E) as [E1 E2]. unfold rows_of, row_iter. cbn [e_kids].
    destruct (row_loop (select_rows ks) []) as [ys e]. cbn in *. rewrite E1, E2. reflexivity. }
  assert (R1 : rows_of before = (map y_row (fst (row_loop a [])), snd (row_loop a []))) by (apply RO; reflexivity).
  assert (R2 : rows_of without = (map y_row (fst (row_loop (a ++ b) [])), snd (row_loop (a ++ b) []))).
  { apply RO. rewrite select_rows_app, map_app. reflexivity. }
  assert (R3 : rows_of with_h = (map y_row (fst (row_loop (a ++ y :: b) [])), snd (row_loop (a ++ y :: b) []))).
  { apply RO. rewrite select_rows_app, map_app. f_equal. cbn [select_rows fst]. rewrite Ht, seqb_refl, CT, orb_true_r. reflexivity. }
  destruct (row_loop_insert_th a y b [] CT) as [I1 I2]. rewrite R1, R2, R3. cbn [fst snd]. split.
  - intros H. rewrite (I1 H). reflexivity.
  - intros H. destruct (I2 H) as (ya & yb & E1 & E2 & E3). rewrite E3.
    destruct (row_loop (a ++ b) []) as [zs e]. cbn [fst snd] in *. injection E1 as ->.
    exists (map y_row ya), (map y_row yb). rewrite !map_app. split; [reflexivity|]. split.
    + rewrite map_length, E2. unfold a. rewrite <- (map_length y_row), select_rows_rows. reflexivity.
    + reflexivity.
Qed.
Print Assumptions C14_header_row.

(** A row without any cell changes nothing at all. *)
Theorem C14_empty_row tag attrs text A B h tl :
  children t_td h = [] -> children t_th h = [] ->
  rows_of (Elem tag attrs text (A ++ (h, tl) :: B)) = rows_of (Elem tag attrs text (A ++ B)).
Proof.
  intros Htd Hth. unfold rows_of, row_iter. cbn [e_kids].
  assert (E : map y_row (select_rows (A ++ (h, tl) :: B)) = map y_row (select_rows (A ++ B))).
  { rewrite !select_rows_app. f_equal. rewrite !select_rows_rows. cbn [filter fst].
    destruct (seqb (e_tag h) t_tr); [|reflexivity]. cbn [map filter fst]. unfold has_cell at 1. rewrite Htd, Hth. reflexivity. }
  destruct (row_loop_ext _ _ [] E) as [E1 E2].
  destruct (row_loop (select_rows (A ++ (h, tl) :: B)) []), (row_loop (select_rows (A ++ B)) []). cbn in *. congruence.
Qed.
Print Assumptions C14_empty_row.

(** So the restoration of C13 fails across such rows: here a cell spanning the first two of
    three rows, the second being a header row (or an empty row), turns up in the third row. *)
Theorem C14_restoration_refuted :
  let cell rs t := (Elem t_td [(a_rowspan, utf8 rs)] (utf8 t) [], []) in
  let row ks := (Elem t_tr [] [] ks, []) in
  let th := (Elem t_th [] (utf8 "h") [], []) in
  let first := row [cell "2"%string "a"%string; cell "1"%string "b"%string] in
  let third := row [cell "1"%string "c"%string; cell "1"%string "d"%string] in
  forall second, In second [row [th]; row []] ->
  let tbl := Elem t_table [] [] [first; second; third] in
  snd (rows_of tbl) = None
  /\ exists r, last (map Some (fst (rows_of tbl))) None = Some r
     /\ map to_text (children t_td r) = [utf8 "a"; utf8 "c"; utf8 "d"].
Proof.
  intros cell row th first third second H tbl. unfold tbl.
  destruct H as [<- | [<- | []]]; (split; [vm_compute; reflexivity|]; eexists; split; vm_compute; reflexivity).
Qed.
Print Assumptions C14_restoration_refuted.

(** C15: if no data cell has a rowspan above 1 (and the spans are numbers), the rows that
    contain a cell come out unchanged, in order. *)
Theorem C15_verbatim tbl :
  (forall tr, In tr (children t_tr tbl) -> children t_th tr = [] ->
     forall td, In td (children t_td tr) ->
       (exists z, span_attr a_rowspan td = Some z /\ z <= 1) /\ exists w, span_attr a_colspan td = Some w) ->
  rows_of tbl = (filter has_cell (children t_tr tbl), None).
Proof.
  intros H. unfold rows_of, row_iter. rewrite row_loop_nospans.
  - rewrite select_rows_children. reflexivity.
  - intros y Hy Hth k Hk. apply (H (y_row y)); [|exact Hth | apply in_map; exact Hk].
    assert (I : In (y_row y) (map y_row (select_rows (e_kids tbl)))) by (apply in_map; exact Hy).
    rewrite select_rows_children in I. apply filter_In in I as [I _]. exact I.
Qed.
Print Assumptions C15_verbatim.

(** Its hypothesis is met by any table without span attributes, for instance. *)
Example C15_sample :
  let td t := (Elem t_td [] (utf8 t) [], []) in
  let tbl := Elem t_table [] [] [(Elem t_tr [] [] [td "a"%string; td "b"%string], []); (Elem t_tr [] [] [], []);
               (Elem t_tr [] [] [(Elem t_th [] [] [], [])], [])] in
  (forall tr, In tr (children t_tr tbl) -> children t_th tr = [] ->
     forall td, In td (children t_td tr) ->
       (exists z, span_attr a_rowspan td = Some z /\ z <= 1) /\ exists w, span_attr a_colspan td = Some w)
  /\ List.length (fst (rows_of tbl)) = 2%nat.
Proof.
  split; [|vm_compute; reflexivity].
  intros tr Htr _ x Hx. cbn in Htr.
  destruct Htr as [<- | [<- | [<- | []]]]; cbn in Hx; try tauto.
  destruct Hx as [<- | [<- | []]]; (split; [exists 1; split; [reflexivity | lia] | exists 1; reflexivity]).
Qed.
