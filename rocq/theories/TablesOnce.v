(** Every table of a docx document is rendered exactly once: proofs. *)
From Coq Require Import NArith ZArith List Bool String Lia Permutation.
From Verif Require Import PyStr PyStrFacts Xml Docx Render SpecFmt SpecGrid SpecHtml SpecList SpecTables GridProofs ListProofs DocxTotal Prop_List.
Import ListNotations.
Local Open Scope string_scope.
Local Open Scope list_scope.

(** ** The grid: where the cells stand *)

Section Blocks.
Variable hf : heap.
(** One row, from column [x] on, with [n] cells made so far; [D0] are the cells shown in the rows
    above, [D] those that begin in this one. *)
Inductive blocks (y : Z) (D0 : list nat) : nat -> nat -> list welem -> list nat -> list nat -> nat -> Prop :=
| bl_nil x n : blocks y D0 x n [] [] [] n
| bl_own x n tc tcs k g es D n' : nth_error hf n = Some g -> g_cell g = tc -> g_top g = y -> g_left g = Z.of_nat x ->
    own_place tc = (1 <=? k)%nat -> blocks y D0 (x + k) (S n) tcs es D n' ->
    blocks y D0 x n (tc :: tcs) (repeat n k ++ es) (if (1 <=? k)%nat then n :: D else D) n'
| bl_old x n tc tcs k i es D n' : In i D0 -> own_place tc = false -> blocks y D0 (x + k) n tcs es D n' ->
    blocks y D0 x n (tc :: tcs) (repeat i k ++ es) D n'.
Inductive rblocks : Z -> list nat -> nat -> list welem -> list (list nat) -> Prop :=
| rbk_nil y D0 n : rblocks y D0 n [] []
| rbk_cons y D0 n tr trs es D n' m : blocks y D0 0 n (w_children "w:tc" tr) es D n' -> rblocks (y + 1) (D0 ++ D) n' trs m ->
    rblocks y D0 n (tr :: trs) (es :: m).
Lemma blocks_in y D0 x n tcs es D n' : blocks y D0 x n tcs es D n' -> forall i, In i es -> In i (D0 ++ D).
Proof.
  induction 1 as [|x n tc tcs k g es D n' _ _ _ _ _ _ IH|x n tc tcs k i es D n' I _ _ IH]; intros j J; [destruct J| |]; apply in_app_or in J as [J|J].
  - apply repeat_spec in J as E. subst j. destruct k; [destruct J|]. apply in_or_app. right. left. reflexivity.
  - apply IH in J. apply in_app_or in J as [J|J]; apply in_or_app; [left; exact J | right; destruct (1 <=? k)%nat; [right|]; exact J].
  - apply repeat_spec in J as ->. apply in_or_app. left. exact I.
  - exact (IH _ J).
Qed.
Lemma blocks_top y D0 x n tcs es D n' : blocks y D0 x n tcs es D n' -> forall i, In i D -> exists g, nth_error hf i = Some g /\ g_top g = y.
Proof.
  induction 1 as [|x n tc tcs k g es D n' N _ T _ _ _ IH|x n tc tcs k i es D n' I _ _ IH]; intros j J; [destruct J| |exact (IH _ J)].
  destruct (1 <=? k)%nat; [destruct J as [<-|J]; [eauto|]|]; exact (IH _ J).
Qed.
End Blocks.

Lemma grid_row_ext row above tcs : forall col h acc h' acc', grid_row row above tcs col h acc = DOk (h', acc') -> ext h h'.
Proof.
  induction tcs as [|tc tcs IH]; intros col h acc h' acc' H; cbn [grid_row] in H; [injection H as <- <-; apply ext_refl|].
  destruct (tc_grid_span tc) as [sp| |]; cbn [dbind] in H; try discriminate. destruct (cell_vertical_merge tc) as [vm| |]; cbn [dbind] in H; try discriminate.
  destruct vm.
  - cbn [dbind] in H. apply IH in H. exact (ext_trans _ _ _ (ext_app _ _) H).
  - destruct above as [a|]; cbn [dbind] in H; try discriminate. destruct (py_index a col) as [i| |]; cbn [dbind] in H; try discriminate.
    destruct (nth_error h i) as [g|]; cbn [dbind] in H; try discriminate. destruct (sp =? g_colspan g)%Z; cbn [dbind] in H; try discriminate.
    apply IH in H. exact (ext_trans _ _ _ (ext_update _ _ _) H).
  - cbn [dbind] in H. apply IH in H. exact (ext_trans _ _ _ (ext_app _ _) H).
Qed.
Lemma grid_rows_ext trs : forall row h m h' m', grid_rows row trs h m = DOk (h', m') -> ext h h'.
Proof.
  induction trs as [|tr trs IH]; intros row h m h' m' H; cbn [grid_rows] in H; [injection H as <- <-; apply ext_refl|].
  destruct (grid_row _ _ _ _ h _) as [[h1 c]| |] eqn:G; cbn [dbind] in H; try discriminate. exact (ext_trans _ _ _ (grid_row_ext _ _ _ _ _ _ _ _ G) (IH _ _ _ _ _ H)).
Qed.
Lemma py_index_in {A} (l : list A) i a : py_index l i = DOk a -> In a l.
Proof.
  unfold py_index. destruct (_ <? 0)%Z; [discriminate|]. match goal with |- match nth_error l ?n with _ => _ end = _ -> _ => destruct (nth_error l n) eqn:E end; [|discriminate].
  intros [= <-]. exact (nth_error_In _ _ E).
Qed.

Lemma grid_row_blocks hf y above D0 : (forall a i, above = Some a -> In i a -> In i D0) ->
  forall tcs h acc h' acc', (forall tc z, In tc tcs -> tc_grid_span tc = DOk z -> (0 <= z)%Z) ->
  grid_row y above tcs (Z.of_nat (List.length acc)) h acc = DOk (h', acc') -> ext h' hf ->
  exists es D, acc' = acc ++ es /\ blocks hf y D0 (List.length acc) (List.length h) tcs es D (List.length h').
Proof.
  intros AB. induction tcs as [|tc tcs IH]; intros h acc h' acc' SP H EX; cbn [grid_row] in H.
  { injection H as <- <-. exists [], []. split; [symmetry; apply app_nil_r | constructor]. }
  destruct (tc_grid_span tc) as [sp| |] eqn:GS; cbn [dbind] in H; try discriminate.
  pose proof (SP tc sp (or_introl eq_refl) GS) as NN.
  destruct (cell_vertical_merge tc) as [vm| |] eqn:VM; cbn [dbind] in H; try discriminate.
  set (k := Z.to_nat sp) in *. assert (KS : sp = Z.of_nat k) by (unfold k; lia).
  assert (SP' : forall c z, In c tcs -> tc_grid_span c = DOk z -> (0 <= z)%Z) by (intros c z I; apply SP; right; exact I).
  destruct (match vm with VMerged => true | _ => false end) eqn:ISM.
  - destruct vm; try discriminate ISM. destruct above as [a|]; cbn [dbind] in H; try discriminate.
    destruct (py_index a (Z.of_nat (List.length acc))) as [i| |] eqn:PI; cbn [dbind] in H; try discriminate.
    destruct (nth_error h i) as [g|]; cbn [dbind] in H; try discriminate. destruct (sp =? g_colspan g)%Z; cbn [dbind] in H; try discriminate.
    assert (L : (Z.of_nat (List.length acc) + sp)%Z = Z.of_nat (List.length (acc ++ repeat i k))) by (rewrite app_length, repeat_length; lia).
    rewrite L in H. destruct (IH _ _ _ _ SP' H EX) as (es & D & -> & B). rewrite app_length, repeat_length, update_length in B.
    exists (repeat i k ++ es), D. split; [rewrite app_assoc; reflexivity|]. apply bl_old; [exact (AB _ _ eq_refl (py_index_in _ _ _ PI)) | unfold own_place; rewrite VM; reflexivity | exact B].
  - assert (H2 : grid_row y above tcs (Z.of_nat (List.length acc) + sp) (h ++ [mkG tc y y (Z.of_nat (List.length acc)) (Z.of_nat (List.length acc) + sp - 1)]) (acc ++ repeat (List.length h) k) = DOk (h', acc')).
    { destruct vm; [exact H | discriminate ISM | exact H]. }
    clear H. rename H2 into H.
    assert (L : (Z.of_nat (List.length acc) + sp)%Z = Z.of_nat (List.length (acc ++ repeat (List.length h) k))) by (rewrite app_length, repeat_length; lia).
    rewrite L in H. set (g0 := mkG tc _ _ _ _) in H. pose proof (grid_row_ext _ _ _ _ _ _ _ _ H) as E1. destruct (IH _ _ _ _ SP' H EX) as (es & D & -> & B).
    rewrite !app_length, repeat_length in B. cbn [List.length] in B. rewrite Nat.add_1_r in B.
    destruct (ext_trans _ _ _ E1 EX (List.length h) g0) as (g & N & C & T & LF & _); [rewrite nth_error_app2, Nat.sub_diag; [reflexivity | lia]|].
    exists (repeat (List.length h) k ++ es), (if (1 <=? k)%nat then List.length h :: D else D). split; [rewrite app_assoc; reflexivity|].
    apply bl_own with (g := g); [exact N | exact C | exact T | exact LF | | exact B].
    unfold own_place. rewrite VM, GS, KS. replace (1 <=? Z.of_nat k)%Z with (1 <=? k)%nat by (destruct (Nat.leb_spec 1 k), (Z.leb_spec 1 (Z.of_nat k)); try reflexivity; lia).
    destruct vm; [reflexivity | discriminate ISM | reflexivity].
Qed.
Lemma grid_rows_blocks hf : forall trs y h m D0 h' m', (forall tr tc z, In tr trs -> In tc (w_children "w:tc" tr) -> tc_grid_span tc = DOk z -> (0 <= z)%Z) ->
  grid_rows y trs h m = DOk (h', m') -> ext h' hf -> (forall a i, rev m <> [] -> hd [] (rev m) = a -> In i a -> In i D0) ->
  exists m1, m' = m ++ m1 /\ rblocks hf y D0 (List.length h) trs m1.
Proof.
  induction trs as [|tr trs IH]; intros y h m D0 h' m' SP H EX AB; cbn [grid_rows] in H.
  { injection H as <- <-. exists []. split; [symmetry; apply app_nil_r | constructor]. }
  destruct (grid_row y _ _ 0 h []) as [[h1 c]| |] eqn:G; cbn [dbind] in H; try discriminate.
  pose proof (grid_rows_ext _ _ _ _ _ _ H) as E1.
  change 0%Z with (Z.of_nat (@List.length nat [])) in G.
  destruct (fun AB SP => grid_row_blocks hf y _ D0 AB _ _ _ _ _ SP G (ext_trans _ _ _ E1 EX)) as (es & D & E & B); [|intros tc z I; apply (SP tr); [left; reflexivity | exact I]|].
  { intros a i X I. destruct (rev m) as [|r0 rs] eqn:R; [discriminate|]. injection X as ->. exact (AB a i ltac:(discriminate) eq_refl I). }
  cbn [app List.length] in E, B. subst c.
  destruct (IH (y + 1)%Z h1 (m ++ [es]) (D0 ++ D) h' m') as (m1 & -> & RB); [intros r tc z I; apply SP; right; exact I | exact H | exact EX| |].
  { intros a i _. rewrite rev_app_distr. cbn [rev app hd]. intros <- I. exact (blocks_in _ _ _ _ _ _ _ _ _ B i I). }
  exists (es :: m1). split; [rewrite <- app_assoc; reflexivity|]. apply rbk_cons with (n' := List.length h1) (D := D); assumption.
Qed.

(** ** Reading *)

Definition tbls (st : list welem) : list welem := filter (is_tag "w:tbl") st.
Definition idl (ks : list ttree) : list N := map w_id (flat_map tree_tables ks).
Definition good_spans (x : welem) : Prop := forall tc n, In tc (table_cells x) -> tc_grid_span tc = DOk n -> (0 <= n)%Z.
Lemma idl_app a b : idl (a ++ b) = idl a ++ idl b.
Proof. unfold idl. rewrite flat_map_app. apply map_app. Qed.
Lemma mem_id_iff i s : mem_id i s = true <-> In i s.
Proof. unfold mem_id. rewrite existsb_exists. split; [intros (x & I & E); apply N.eqb_eq in E; subst; exact I | intros I; exists i; split; [exact I | apply N.eqb_refl]]. Qed.
Lemma mem_id_false i s : ~ In i s -> mem_id i s = false.
Proof. intros H. destruct (mem_id i s) eqn:E; [apply mem_id_iff in E; contradiction | reflexivity]. Qed.
Definition disjoint (a b : list N) : Prop := forall i, In i a -> ~ In i b.
Lemma NoDup_split {A} (a b : list A) : NoDup (a ++ b) -> NoDup a /\ NoDup b /\ forall x, In x a -> ~ In x b.
Proof.
  induction a as [|c a IH]; cbn [app]; intros H; [split; [constructor|]; split; [exact H | intros x []]|]. inversion H as [|? ? N ND]; subst. destruct (IH ND) as (A1 & A2 & A3).
  split; [constructor; [intros I; apply N, in_or_app; left; exact I | exact A1]|]. split; [exact A2|]. intros x [->|I]; [intros J; apply N, in_or_app; right; exact J | exact (A3 x I)].
Qed.
Lemma roots_in ts ks : Forall2 table_tree ts ks -> forall x, In x ts -> In (w_id x) (idl ks).
Proof.
  induction 1 as [|x k ts ks T _ IH]; intros y []; unfold idl; cbn [flat_map]; rewrite map_app; apply in_or_app.
  - subst y. left. inversion T; subst. left. reflexivity.
  - right. apply IH. assumption.
Qed.

Section Read.
Variable d : docx.
Notation of := (read_as d).
Definition fresh_ok (pa : list welem -> seen -> dres (list hunit * seen)) : Prop :=
  forall st s us s' ks, pa st s = DOk (us, s') -> Forall2 table_tree (tbls st) ks -> NoDup (idl ks) -> disjoint (idl ks) s ->
    Forall good_spans (flat_map tree_tables ks) ->
    units_trees of us ks /\ forall i, In i s' <-> In i s \/ In i (idl ks).
Definition old_ok (pa : list welem -> seen -> dres (list hunit * seen)) : Prop :=
  forall st s us s', pa st s = DOk (us, s') -> (forall x, In x (tbls st) -> In (w_id x) s) -> s' = s.

Section Table.
Variable pa : list welem -> seen -> dres (list hunit * seen).
Hypotheses (FRESH : fresh_ok pa) (OLD : old_ok pa).
Variable hf : heap.
Notation look := (flat_map (fun i => match nth_error hf i with Some g => [(i, g)] | None => [] end)).

Lemma look_repeat i g k : nth_error hf i = Some g -> look (repeat i k) = repeat (i, g) k.
Proof. intros N. induction k as [|k IH]; cbn [repeat flat_map]; [reflexivity|]. rewrite N, IH. reflexivity. Qed.
Lemma parse_repeat i g rest y : forall k s cells s' x, parse_row pa (repeat (i, g) k ++ rest) s = DOk (cells, s') ->
  (forall t, In t (w_children "w:tbl" (g_cell g)) -> In (w_id t) s) ->
  (forall j, (x <= j < x + k)%nat -> (g_left g, g_top g) <> (Z.of_nat j, y)) ->
  exists c2, parse_row pa rest s = DOk (c2, s') /\ forall l, cells_trees of y (Z.of_nat (x + k)) c2 l -> cells_trees of y (Z.of_nat x) cells l.
Proof.
  induction k as [|k IH]; intros s cells s' x H O P; cbn [repeat app] in H.
  { exists cells. split; [exact H|]. intros l. rewrite Nat.add_0_r. exact (fun X => X). }
  cbn [parse_row] in H. destruct (pa (w_kids (g_cell g)) s) as [[us s1]| |] eqn:PA; cbn [dbind] in H; try discriminate.
  rewrite (OLD _ _ _ _ PA O) in H.
  destruct (parse_row pa (repeat (i, g) k ++ rest) s) as [[cs s2]| |] eqn:PR; cbn [dbind] in H; try discriminate. injection H as <- <-.
  destruct (IH _ _ _ (S x) PR O) as (c2 & E & C); [intros j J; apply P; lia|]. exists c2. split; [exact E|]. intros l L.
  apply clt_skip; [cbn [tc_origin]; apply P; lia|]. replace (Z.of_nat x + 1)%Z with (Z.of_nat (S x)) by lia. apply C. replace (S x + k)%nat with (x + S k)%nat by lia. exact L.
Qed.

Definition covered_by (D : list nat) (s : seen) : Prop :=
  forall i g, In i D -> nth_error hf i = Some g -> forall x, In x (w_children "w:tbl" (g_cell g)) -> In (w_id x) s.
Definition tops_below (y : Z) (D : list nat) : Prop := forall i, In i D -> exists g, nth_error hf i = Some g /\ (g_top g < y)%Z.

Lemma row_trees y D0 x n tcs es D n' : blocks hf y D0 x n tcs es D n' -> tops_below y D0 ->
  forall s cells s' ks, parse_row pa (look es) s = DOk (cells, s') -> covered_by D0 s ->
  Forall2 table_tree (flat_map (w_children "w:tbl") (filter own_place tcs)) ks -> NoDup (idl ks) -> disjoint (idl ks) s ->
  Forall good_spans (flat_map tree_tables ks) ->
  cells_trees of y (Z.of_nat x) cells ks /\ (forall i, In i s' <-> In i s \/ In i (idl ks)) /\ covered_by (D0 ++ D) s'.
Proof.
  intros B TB. induction B as [x n|x n tc tcs k g es D n' N C T L OP B IH|x n tc tcs k i es D n' I OP B IH]; intros s cells s' ks H CV F ND DJ GS.
  - cbn in H. injection H as <- <-. cbn in F. inversion F; subst. split; [constructor|]. split; [intros i; cbn; tauto|]. rewrite app_nil_r. exact CV.
  - rewrite flat_map_app, (look_repeat _ _ _ N) in H. destruct k as [|k].
    + cbn [repeat app] in H. cbn [filter] in F. rewrite OP in F. cbn [Nat.leb] in F |- *. rewrite Nat.add_0_r in IH. exact (IH _ _ _ _ H CV F ND DJ GS).
    + cbn [repeat app parse_row] in H. destruct (pa (w_kids (g_cell g)) s) as [[us s1]| |] eqn:PA; cbn [dbind] in H; try discriminate.
      destruct (parse_row pa (repeat (n, g) k ++ look es) s1) as [[cs s2]| |] eqn:PR; cbn [dbind] in H; try discriminate. injection H as <- <-.
      cbn [filter] in F. rewrite OP in F. cbn [Nat.leb flat_map] in F. apply Forall2_app_inv_l in F as (k1 & k2 & F1 & F2 & ->).
      rewrite idl_app in ND, DJ. apply NoDup_split in ND as (N1 & N2 & N12). rewrite flat_map_app in GS. apply Forall_app in GS as [G1 G2].
      rewrite <- C in F1. destruct (FRESH _ _ _ _ k1 PA F1 N1) as (UT & SI); [intros j J; apply DJ, in_or_app; left; exact J | exact G1|].
      assert (COV : forall t, In t (w_children "w:tbl" (g_cell g)) -> In (w_id t) s1) by (intros t I; apply SI; right; exact (roots_in _ _ F1 _ I)).
      destruct (parse_repeat n g (look es) y k s1 cs s2 (S x) PR COV) as (c2 & PR2 & CT); [intros j J [= X _]; rewrite L in X; lia|].
      destruct (IH s1 c2 s2 k2 PR2) as (CC & SI2 & CV2).
      * intros i g' I N' t J. apply SI. left. exact (CV i g' I N' t J).
      * exact F2.
      * exact N2.
      * intros j J J'. apply SI in J' as [J'|J']; [exact (DJ j (in_or_app _ _ _ (or_intror J)) J') | exact (N12 j J' J)].
      * exact G2.
      * replace (x + S k)%nat with (S x + k)%nat in CC by lia. apply CT in CC. split; [|split].
        -- apply clt_cell; [cbn [tc_origin]; rewrite L, T; reflexivity | exact UT|]. replace (Z.of_nat x + 1)%Z with (Z.of_nat (S x)) by lia. exact CC.
        -- intros i. rewrite SI2, SI, idl_app, in_app_iff. tauto.
        -- intros i g' I N' t J. apply in_app_or in I as [I|[<-|I]]; [apply (CV2 i g' (in_or_app _ _ _ (or_introl I)) N' t J)| |apply (CV2 i g' (in_or_app _ _ _ (or_intror I)) N' t J)].
           rewrite N in N'. injection N' as <-. apply SI2. left. exact (COV t J).
  - destruct (TB i I) as (g & N & TP). rewrite flat_map_app, (look_repeat _ _ _ N) in H. cbn [filter] in F. rewrite OP in F.
    destruct (parse_repeat i g (look es) y k s cells s' x H) as (c2 & PR2 & CT); [exact (CV i g I N) | intros j J [= _ X]; lia|].
    destruct (IH _ _ _ _ PR2 CV F ND DJ GS) as (CC & R). split; [exact (CT _ CC) | exact R].
Qed.
Lemma rows_trees_ok y D0 n trs m : rblocks hf y D0 n trs m -> tops_below y D0 ->
  forall s rows s' ks, parse_rows pa (map look m) s = DOk (rows, s') -> covered_by D0 s ->
  Forall2 table_tree (flat_map (w_children "w:tbl") (filter own_place (flat_map (w_children "w:tc") trs))) ks -> NoDup (idl ks) -> disjoint (idl ks) s ->
  Forall good_spans (flat_map tree_tables ks) ->
  rows_trees of y rows ks /\ (forall i, In i s' <-> In i s \/ In i (idl ks)).
Proof.
  induction 1 as [y D0 n|y D0 n tr trs es D n' m B RB IH]; intros TB s rows s' ks H CV F ND DJ GS; cbn [map parse_rows] in H.
  - injection H as <- <-. cbn in F. inversion F; subst. split; [constructor|]. intros i; cbn; tauto.
  - destruct (parse_row pa (look es) s) as [[cs s1]| |] eqn:PR; cbn [dbind] in H; try discriminate.
    destruct (parse_rows pa (map look m) s1) as [[rs s2]| |] eqn:PRS; cbn [dbind] in H; try discriminate. injection H as <- <-.
    cbn [flat_map] in F. rewrite filter_app, flat_map_app in F. apply Forall2_app_inv_l in F as (k1 & k2 & F1 & F2 & ->).
    rewrite idl_app in ND, DJ. apply NoDup_split in ND as (N1 & N2 & N12). rewrite flat_map_app in GS. apply Forall_app in GS as [G1 G2].
    destruct (row_trees _ _ _ _ _ _ _ _ B TB _ _ _ _ PR CV F1 N1) as (CC & SI & CV2); [intros j J; apply DJ, in_or_app; left; exact J | exact G1|].
    destruct (IH) with (s := s1) (rows := rs) (s' := s2) (ks := k2) as (RR & SI2).
    + intros i I. apply in_app_or in I as [I|I]; [destruct (TB i I) as (g & N & T); exists g; split; [exact N | lia]|].
      destruct (blocks_top _ _ _ _ _ _ _ _ _ B i I) as (g & N & T). exists g. split; [exact N | lia].
    + exact PRS.
    + exact CV2.
    + exact F2.
    + exact N2.
    + intros j J J'. apply SI in J' as [J'|J']; [exact (DJ j (in_or_app _ _ _ (or_intror J)) J') | exact (N12 j J' J)].
    + exact G2.
    + split; [apply rwt_cons; assumption|]. intros i. rewrite SI2, SI, idl_app, in_app_iff. tauto.
Qed.
End Table.

Lemma table_trees f tbl s r s' k : fresh_ok (parse_any d f) -> old_ok (parse_any d f) ->
  parse_table (parse_any d f) tbl s = DOk (r, s') -> table_tree tbl k -> NoDup (idl [k]) -> disjoint (idl [k]) s -> Forall good_spans (tree_tables k) ->
  exists u, r = Some u /\ unit_trees of u [k] /\ forall i, In i s' <-> In i s \/ In i (idl [k]).
Proof.
  intros FR OL H T ND DJ GS. inversion T as [x ks F]; subst. assert (NS : ~ In (w_id tbl) s) by (apply DJ; left; reflexivity).
  pose proof H as H0. unfold parse_table in H. rewrite (mem_id_false _ _ NS) in H. destruct (grid tbl) as [m| |] eqn:G; cbn [dbind] in H; try discriminate.
  destruct (parse_rows _ m _) as [[rows s1]| |] eqn:PR; cbn [dbind] in H; try discriminate. injection H as <- <-.
  unfold grid in G. destruct (grid_rows 0 _ [] []) as [[hf mi]| |] eqn:GR; cbn [dbind] in G; try discriminate. injection G as <-.
  cbn [tree_tables] in GS. inversion GS as [|? ? GT GK]; subst.
  destruct (grid_rows_blocks hf _ _ _ _ [] _ _ (fun tr tc z I J => GT tc z (proj2 (in_flat_map _ _ _) (ex_intro _ tr (conj I J)))) GR (ext_refl _)) as (m1 & E & RB); [intros a i X; exfalso; apply X; reflexivity|].
  cbn [app] in E. subst mi. unfold idl in ND, DJ. cbn [flat_map tree_tables app map] in ND, DJ. rewrite app_nil_r in ND, DJ. inversion ND as [|? ? NI ND']; subst.
  destruct (rows_trees_ok _ FR OL hf _ _ _ _ _ RB) with (2 := PR) (ks := ks) as (RT & SI).
  - intros i [].
  - intros i g [].
  - exact F.
  - exact ND'.
  - intros i I [<-|J]; [exact (NI I) | exact (DJ i (or_intror I) J)].
  - exact GK.
  - exists (HTable (w_id tbl) (find_id rows) rows). split; [reflexivity|]. split; [apply ut_table; [exists f, s, s1; exact H0 | exact RT]|].
    intros i. rewrite SI. unfold idl at 2. cbn [flat_map tree_tables app map]. rewrite app_nil_r. cbn [In]. fold (idl ks). tauto.
Qed.
Lemma table_old pa tbl s r s' : parse_table pa tbl s = DOk (r, s') -> In (w_id tbl) s -> r = None /\ s' = s.
Proof. unfold parse_table. intros H I. apply mem_id_iff in I. rewrite I in H. injection H as <- <-. auto. Qed.

Lemma par_not_tbl p : w_tag p = utf8 "w:p" -> is_tag "w:tbl" p = false.
Proof. unfold is_tag. intros ->. reflexivity. Qed.
Lemma list_no_tables p rest u st' : w_tag p = utf8 "w:p" -> is_list_p d p = DOk true -> parse_list d (p :: rest) = DOk (u, st') ->
  tbls (p :: rest) = tbls st' /\ exists l its, u = HList l its.
Proof.
  intros T L H. destruct (C45_list _ _ _ _ _ T (proj1 (listed_iff _ _) L) H) as (l & its & a & i & ps & op & -> & -> & _ & _ & _ & F & _). split; [|eauto].
  unfold tbls. rewrite filter_app. replace (filter (is_tag "w:tbl") ps) with (@nil welem); [reflexivity|].
  induction F as [|q ps (j & (TQ & _) & _) _ IH]; cbn [filter]; [reflexivity|]. rewrite (par_not_tbl _ TQ). exact IH.
Qed.

Theorem any_trees f : fresh_ok (parse_any d f) /\ old_ok (parse_any d f).
Proof.
  induction f as [|f [IHF IHO]]; [split; intros st s us s'; cbn; discriminate|]. split.
  - intros st s us s' ks H F ND DJ GS. cbn [parse_any] in H. destruct st as [|cur rest].
    { injection H as <- <-. inversion F; subst. split; [constructor|]. intros i; cbn; tauto. }
    destruct (is_tag "w:tbl" cur) eqn:TT.
    + destruct (parse_table _ cur s) as [[t s1]| |] eqn:PT; cbn [dbind] in H; try discriminate. destruct (parse_any d f rest s1) as [[us2 s2]| |] eqn:PA; cbn [dbind] in H; try discriminate.
      injection H as <- <-. unfold tbls in F. cbn [filter] in F. rewrite TT in F. inversion F as [|? k ? ks2 T F2]; subst.
      change (k :: ks2) with ([k] ++ ks2) in *. rewrite idl_app in ND, DJ. apply NoDup_split in ND as (N1 & N2 & N12). rewrite flat_map_app in GS. apply Forall_app in GS as [G1 G2].
      cbn [flat_map] in G1. rewrite app_nil_r in G1.
      destruct (table_trees f cur s t s1 k IHF IHO PT T N1) as (u & -> & UT & SI); [intros j J; apply DJ, in_or_app; left; exact J | exact G1|].
      destruct (IHF _ _ _ _ ks2 PA F2 N2) as (UT2 & SI2); [intros j J J'; apply SI in J' as [J'|J']; [exact (DJ j (in_or_app _ _ _ (or_intror J)) J') | exact (N12 j J' J)] | exact G2|].
      split; [apply uts_cons; assumption|]. intros i. rewrite SI2, SI, idl_app, in_app_iff. tauto.
    + assert (F' : Forall2 table_tree (tbls rest) ks) by (unfold tbls in F; cbn [filter] in F; rewrite TT in F; exact F).
      destruct (is_tag "w:p" cur) eqn:TP; [|exact (IHF _ _ _ _ _ H F' ND DJ GS)].
      destruct (is_list_p d cur) as [[|]| |] eqn:LP; cbn [dbind] in H; try discriminate.
      * destruct (parse_list d (cur :: rest)) as [[u st']| |] eqn:PL; cbn [dbind] in H; try discriminate. destruct (parse_any d f st' s) as [[us2 s2]| |] eqn:PA; cbn [dbind] in H; try discriminate.
        injection H as <- <-. destruct (list_no_tables _ _ _ _ (proj1 (seqb_eq _ _) TP) LP PL) as (E & l & its & ->). rewrite E in F.
        destruct (IHF _ _ _ _ _ PA F ND DJ GS) as (UT & SI). split; [|exact SI]. apply (uts_cons _ _ _ [] ks); [constructor | exact UT].
      * unfold parse_paragraph in H. destruct (parse_spans d cur) as [sps| |]; cbn [dbind] in H; try discriminate. destruct (parse_any d f rest s) as [[us2 s2]| |] eqn:PA; cbn [dbind] in H; try discriminate.
        injection H as <- <-. destruct (IHF _ _ _ _ _ PA F' ND DJ GS) as (UT & SI). split; [|exact SI]. destruct sps; [exact UT|]. apply (uts_cons _ _ _ [] ks); [constructor | exact UT].
  - intros st s us s' H O. cbn [parse_any] in H. destruct st as [|cur rest]; [injection H as <- <-; reflexivity|].
    destruct (is_tag "w:tbl" cur) eqn:TT.
    + destruct (parse_table _ cur s) as [[t s1]| |] eqn:PT; cbn [dbind] in H; try discriminate. destruct (parse_any d f rest s1) as [[us2 s2]| |] eqn:PA; cbn [dbind] in H; try discriminate.
      injection H as <- <-. destruct (table_old _ _ _ _ _ PT) as [_ ->]; [apply O; unfold tbls; cbn [filter]; rewrite TT; left; reflexivity|].
      apply (IHO _ _ _ _ PA). intros x I. apply O. unfold tbls. cbn [filter]. rewrite TT. right. exact I.
    + assert (O' : forall x, In x (tbls rest) -> In (w_id x) s) by (intros x I; apply O; unfold tbls; cbn [filter]; rewrite TT; exact I).
      destruct (is_tag "w:p" cur) eqn:TP; [|exact (IHO _ _ _ _ H O')].
      destruct (is_list_p d cur) as [[|]| |] eqn:LP; cbn [dbind] in H; try discriminate.
      * destruct (parse_list d (cur :: rest)) as [[u st']| |] eqn:PL; cbn [dbind] in H; try discriminate. destruct (parse_any d f st' s) as [[us2 s2]| |] eqn:PA; cbn [dbind] in H; try discriminate.
        injection H as <- <-. destruct (list_no_tables _ _ _ _ (proj1 (seqb_eq _ _) TP) LP PL) as (E & _). rewrite E in O. exact (IHO _ _ _ _ PA O).
      * unfold parse_paragraph in H. destruct (parse_spans d cur) as [sps| |]; cbn [dbind] in H; try discriminate. destruct (parse_any d f rest s) as [[us2 s2]| |] eqn:PA; cbn [dbind] in H; try discriminate.
        injection H as <- <-. exact (IHO _ _ _ _ PA O').
Qed.
End Read.

(** ** The document *)

Lemma below_kids e : below e = flat_map (fun k => k :: below k) (w_kids e).
Proof. destruct e. reflexivity. Qed.
Lemma wsize_ind (P : welem -> Prop) : (forall e, (forall x, (wsize x < wsize e)%nat -> P x) -> P e) -> forall e, P e.
Proof.
  intros H e. assert (G : forall n e, (wsize e < n)%nat -> P e).
  { induction n as [|n IH]; intros x L; [lia|]. apply H. intros y Y. apply IH. lia. }
  apply (G (S (wsize e))). lia.
Qed.
Definition nodes (e : welem) : list welem := e :: below e.
Lemma nodes_kids e : nodes e = e :: flat_map nodes (w_kids e).
Proof. unfold nodes. rewrite (below_kids e). reflexivity. Qed.
(** What is below an element stands right after it. *)
Lemma below_split r : forall x, In x (nodes r) -> exists A B, nodes r = A ++ nodes x ++ B.
Proof.
  induction r as [r IH] using wsize_ind. intros x I. rewrite nodes_kids in I. destruct I as [<-|I]; [exists [], []; rewrite app_nil_r; reflexivity|].
  apply in_flat_map in I as (k & K & I). destruct (IH k (kid_size _ _ K) x I) as (A & B & E). rewrite nodes_kids.
  apply in_split in K as (l1 & l2 & ->). rewrite flat_map_app. cbn [flat_map]. rewrite E.
  exists (r :: flat_map nodes l1 ++ A), (B ++ flat_map nodes l2). cbn [app]. rewrite <- !app_assoc. reflexivity.
Qed.
Lemma below_trans r x y : In x (nodes r) -> In y (nodes x) -> In y (nodes r).
Proof. intros I J. destruct (below_split r x I) as (A & B & ->). apply in_or_app. right. apply in_or_app. left. exact J. Qed.
Lemma kid_below e k : In k (w_kids e) -> In k (below e).
Proof. intros I. rewrite below_kids. apply in_flat_map. exists k. split; [exact I | left; reflexivity]. Qed.
Lemma kid_node r e k : In e (nodes r) -> In k (w_kids e) -> In k (nodes r).
Proof. intros I K. apply (below_trans r e k I). right. apply kid_below. exact K. Qed.
Lemma NoDup_app_inj {A B} (f : A -> B) l x y : NoDup (map f l) -> In x l -> In y l -> f x = f y -> x = y.
Proof.
  induction l as [|a l IH]; intros ND I J E; [destruct I|]. inversion ND as [|? ? N ND']; subst.
  destruct I as [<-|I], J as [<-|J]; [reflexivity | exfalso; apply N; rewrite E; apply in_map; exact J | exfalso; apply N; rewrite <- E; apply in_map; exact I | eauto].
Qed.
(** The parent of an element is unique. *)
Lemma parent_unique r : NoDup (map w_id (nodes r)) -> forall a b k, In a (nodes r) -> In b (nodes r) -> In k (w_kids a) -> In k (w_kids b) -> a = b.
Proof.
  induction r as [r IH] using wsize_ind. intros ND a b k IA IB KA KB. rewrite nodes_kids in ND, IA, IB. cbn [map] in ND. inversion ND as [|? ? NR ND']; subst.
  assert (TOP : forall c, In c (flat_map nodes (w_kids r)) -> In k (w_kids r) -> In k (w_kids c) -> False).
  { intros c IC KR KC. apply in_flat_map in IC as (q & Q & IC). apply in_split in Q as (l1 & l2 & E). rewrite E in KR, ND'.
    rewrite flat_map_app, !map_app in ND'. cbn [flat_map] in ND'. rewrite map_app in ND'.
    assert (INB : In k (below q)). { assert (X : In k (nodes c)) by (right; apply kid_below; exact KC). destruct (below_split q c IC) as (A & B & E2).
      assert (In k (nodes q)) as [->|Y] by (exact (below_trans q c k IC X)); [|exact Y]. exfalso.
      (* k = q would be below itself *) pose proof (kid_size _ _ KC). assert (wsize c <= wsize k)%nat; [|lia].
      clear - IC. revert c IC. induction k as [k IHk] using wsize_ind. intros c IC. rewrite nodes_kids in IC. destruct IC as [->|IC]; [lia|].
      apply in_flat_map in IC as (q & Q & IC). pose proof (kid_size _ _ Q). specialize (IHk q H c IC). lia. }
    apply NoDup_split in ND' as (_ & ND2 & N12). apply in_app_or in KR as [KR|[->|KR]].
    - apply (N12 (w_id k)); [apply in_map, in_flat_map; exists k; split; [exact KR | left; reflexivity]|]. apply in_or_app. left. apply in_map. right. exact INB.
    - apply NoDup_split in ND2 as (ND3 & _). cbn [nodes map] in ND3. inversion ND3 as [|? ? X _]; subst. apply X, in_map. exact INB.
    - apply NoDup_split in ND2 as (_ & _ & N23). apply (N23 (w_id k)); [apply in_map; right; exact INB|]. apply in_map, in_flat_map. exists k. split; [exact KR | left; reflexivity]. }
  destruct IA as [<-|IA], IB as [<-|IB]; [reflexivity | exfalso; exact (TOP b IB KA KB) | exfalso; exact (TOP a IA KB KA)|].
  apply in_flat_map in IA as (q & Q & IA). apply in_flat_map in IB as (q' & Q' & IB).
  assert (q = q').
  { pose proof (kid_node q a k IA KA) as X. pose proof (kid_node q' b k IB KB) as X'.
    clear - ND' X X' Q Q'. induction (w_kids r) as [|c l IHl]; [destruct Q|]. cbn [flat_map] in ND'. rewrite map_app in ND'. apply NoDup_split in ND' as (_ & N2 & N12).
    destruct Q as [->|Q], Q' as [->|Q']; [reflexivity | | |exact (IHl Q Q' N2)]; exfalso; apply (N12 (w_id k)); try (apply in_map; assumption); apply in_map, in_flat_map; eauto. }
  subst q'. apply (IH q (kid_size _ _ Q)) with (k := k); try assumption. apply in_split in Q as (l1 & l2 & E). rewrite E, flat_map_app, map_app in ND'. cbn [flat_map] in ND'. rewrite map_app in ND'.
  apply NoDup_split in ND' as (_ & ND' & _). apply NoDup_split in ND' as (ND' & _). exact ND'.
Qed.

(** The tables nested in a table, directly or not. *)
Inductive reach : welem -> welem -> Prop :=
| rc_refl x : reach x x
| rc_step x y z : In y (nested_tables x) -> reach y z -> reach x z.
Lemma nested_parent x y : In y (nested_tables x) -> is_tag "w:tbl" y = true /\ exists tr tc, In tr (w_kids x) /\ In tc (w_kids tr) /\ In y (w_kids tc).
Proof.
  unfold nested_tables, table_cells. intros I. apply in_flat_map in I as (tc & C & I). apply filter_In in C as [C _]. apply in_flat_map in C as (tr & R & C).
  apply filter_In in I as [I T]. apply filter_In in C as [C _]. apply filter_In in R as [R _]. split; [exact T|]. eauto.
Qed.
Lemma nested_node r x y : In x (nodes r) -> In y (nested_tables x) -> In y (nodes r).
Proof. intros I J. apply nested_parent in J as (_ & tr & tc & A & B & C). exact (kid_node r tc y (kid_node r tr tc (kid_node r x tr I A) B) C). Qed.
Lemma nested_below x y : In y (nested_tables x) -> In y (below x).
Proof.
  intros J. destruct (nested_node x x y (or_introl eq_refl) J) as [<-|I]; [|exact I]. exfalso.
  apply nested_parent in J as (_ & tr & tc & A & B & C). apply kid_size in A, B, C. lia.
Qed.
Lemma nested_size x y : In y (nested_tables x) -> (wsize y < wsize x)%nat.
Proof. intros J. apply nested_parent in J as (_ & tr & tc & A & B & C). apply kid_size in A, B, C. lia. Qed.
Lemma tree_exists : forall x, exists k, table_tree x k.
Proof.
  intros x. induction x as [x IH] using wsize_ind. assert (exists l, Forall2 table_tree (nested_tables x) l) as [l F]; [|exists (Node x l); constructor; exact F].
  assert (S : forall y, In y (nested_tables x) -> exists k, table_tree y k) by (intros y I; exact (IH y (nested_size _ _ I))). clear IH.
  induction (nested_tables x) as [|y ys IH]; [exists []; constructor|]. destruct (S y (or_introl eq_refl)) as [k K]. destruct IH as [l F]; [intros z I; apply S; right; exact I|].
  exists (k :: l). constructor; assumption.
Qed.
Lemma tree_reach : forall x k, table_tree x k -> forall y, In y (tree_tables k) <-> reach x y.
Proof.
  induction x as [x IH] using wsize_ind. intros k T y. inversion T as [? l F]; subst. cbn [tree_tables].
  assert (IN : forall z kz, In z (nested_tables x) -> table_tree z kz -> (In y (tree_tables kz) <-> reach z y)) by (intros z kz I TZ; exact (IH z (nested_size _ _ I) kz TZ y)).
  split.
  - intros [<-|I]; [constructor|]. assert (exists z, In z (nested_tables x) /\ reach z y) as (z & Z & R); [|exact (rc_step _ _ _ Z R)].
    clear T IH. induction F as [|z kz zs ks TZ F IHF]; cbn [flat_map] in I; [destruct I|]. apply in_app_or in I as [I|I].
    + exists z. split; [left; reflexivity|]. apply (IN z kz); [left; reflexivity | exact TZ | exact I].
    + destruct IHF as (z' & Z & R); [intros q kq J; apply IN; right; exact J | exact I|]. exists z'. split; [right; exact Z | exact R].
  - intros R. inversion R as [|? z ? Z RZ]; subst; [left; reflexivity|]. right. clear T IH R. induction F as [|q kq zs ks TZ F IHF]; [destruct Z|]. cbn [flat_map]. apply in_or_app.
    destruct Z as [<-|Z]; [left; apply (IN q kq); [left; reflexivity | exact TZ | exact RZ] | right; apply IHF; [intros p kp J; apply IN; right; exact J | exact Z]].
Qed.
Lemma reach_node r x y : reach x y -> In x (nodes r) -> In y (nodes r).
Proof. induction 1 as [|x y z N R IH]; intros I; [exact I|]. apply IH. exact (nested_node _ _ _ I N). Qed.
Lemma reach_trans x y z : reach x y -> reach y z -> reach x z.
Proof. induction 1 as [|x y w N R IH]; intros R2; [exact R2|]. exact (rc_step _ _ _ N (IH R2)). Qed.
Lemma reach_last x y : reach x y -> x = y \/ exists z, reach x z /\ In y (nested_tables z).
Proof.
  induction 1 as [|x y z N R IH]; [left; reflexivity|]. right. destruct IH as [->|(w & RW & I)]; [exists x; split; [constructor | exact N]|].
  exists w. split; [exact (rc_step _ _ _ N RW) | exact I].
Qed.
Lemma reach_tbl x y : is_tag "w:tbl" x = true -> reach x y -> is_tag "w:tbl" y = true.
Proof. intros T R. destruct (reach_last _ _ R) as [<-|(z & _ & I)]; [exact T | exact (proj1 (nested_parent _ _ I))]. Qed.

(** Sublists. *)
Inductive sub {A} : list A -> list A -> Prop :=
| sub_nil l : sub [] l
| sub_take a l m : sub l m -> sub (a :: l) (a :: m)
| sub_skip a l m : sub l m -> sub l (a :: m).
Lemma sub_refl {A} (l : list A) : sub l l. Proof. induction l; constructor; assumption. Qed.
Lemma sub_app {A} (a b c e : list A) : sub a b -> sub c e -> sub (a ++ c) (b ++ e).
Proof. intros S1 S2. induction S1 as [l|x l m S1 IH|x l m S1 IH]; cbn [app]; [|constructor; exact IH..]. induction l; cbn [app]; [exact S2 | apply sub_skip; assumption]. Qed.
Lemma sub_trans {A} (a b c : list A) : sub a b -> sub b c -> sub a c.
Proof.
  intros S1 S2. revert a S1. induction S2 as [l|x l m S2 IH|x l m S2 IH]; intros a S1; [inversion S1; constructor| |apply sub_skip, IH, S1].
  inversion S1; subst; constructor; apply IH; assumption.
Qed.
Lemma sub_in {A} (a b : list A) x : sub a b -> In x a -> In x b.
Proof. induction 1; intros I; [destruct I | destruct I as [<-|I]; [left; reflexivity | right; auto] | right; auto]. Qed.
Lemma sub_NoDup {A} (a b : list A) : sub a b -> NoDup b -> NoDup a.
Proof. induction 1 as [|x l m S IH|x l m S IH]; intros N; [constructor|inversion N; subst|inversion N; subst; auto]. constructor; [intros I; apply H1; exact (sub_in _ _ _ S I) | auto]. Qed.
Lemma sub_map {A B} (f : A -> B) a b : sub a b -> sub (map f a) (map f b).
Proof. induction 1; cbn [map]; constructor; assumption. Qed.
Lemma sub_flat {A B} (f g : A -> list B) l : (forall a, In a l -> sub (f a) (g a)) -> sub (flat_map f l) (flat_map g l).
Proof. induction l as [|a l IH]; intros H; cbn [flat_map]; [constructor|]. apply sub_app; [apply H; left; reflexivity | apply IH; intros b I; apply H; right; exact I]. Qed.
Lemma sub_flat_filter {A B} (f : A -> list B) p l : sub (flat_map f (filter p l)) (flat_map f l).
Proof.
  induction l as [|a l IH]; cbn [filter flat_map]; [constructor|]. destruct (p a); cbn [flat_map]; [apply sub_app; [apply sub_refl | exact IH]|].
  apply (sub_app [] (f a)); [constructor | exact IH].
Qed.
Lemma sub_cons {A} (a : A) l : sub l (a :: l). Proof. apply sub_skip, sub_refl. Qed.
Lemma flat_flat {A B C} (f : B -> list C) (g : A -> list B) l : flat_map f (flat_map g l) = flat_map (fun a => flat_map f (g a)) l.
Proof. induction l as [|a l IH]; cbn [flat_map]; [reflexivity|]. rewrite flat_map_app, IH. reflexivity. Qed.
Lemma tree_sub : forall x k, table_tree x k -> sub (tree_tables k) (nodes x).
Proof.
  induction x as [x IH] using wsize_ind. intros k T. inversion T as [? l F]; subst. cbn [tree_tables]. rewrite nodes_kids. apply sub_take.
  assert (S1 : sub (flat_map tree_tables l) (flat_map nodes (nested_tables x))).
  { assert (S : forall y ky, In y (nested_tables x) -> table_tree y ky -> sub (tree_tables ky) (nodes y)) by (intros y ky I; exact (IH y (nested_size _ _ I) ky)). clear T IH.
    induction F as [|y ky ys ks TY F IHF]; cbn [flat_map]; [constructor|]. apply sub_app; [apply S; [left; reflexivity | exact TY] | apply IHF; intros z kz I; apply S; right; exact I]. }
  apply (sub_trans _ _ _ S1). unfold nested_tables, table_cells, w_children. rewrite flat_flat.
  apply (sub_trans _ (flat_map (fun tc => flat_map nodes (filter (is_tag "w:tbl") (w_kids tc))) (flat_map (fun tr => filter (is_tag "w:tc") (w_kids tr)) (filter (is_tag "w:tr") (w_kids x))))); [apply sub_flat_filter|].
  rewrite flat_flat.
  apply (sub_trans _ (flat_map (fun tr => flat_map (fun tc => flat_map nodes (filter (is_tag "w:tbl") (w_kids tc))) (filter (is_tag "w:tc") (w_kids tr))) (w_kids x))); [apply sub_flat_filter|].
  apply sub_flat. intros tr _. rewrite (nodes_kids tr). apply sub_skip.
  apply (sub_trans _ (flat_map (fun tc => flat_map nodes (filter (is_tag "w:tbl") (w_kids tc))) (w_kids tr))); [apply sub_flat_filter|].
  apply sub_flat. intros tc _. rewrite (nodes_kids tc). apply sub_skip. apply sub_flat_filter.
Qed.

Lemma reach_ind_r (P : welem -> Prop) x : P x -> (forall z y, reach x z -> P z -> In y (nested_tables z) -> P y) -> forall y, reach x y -> P y.
Proof.
  intros B ST y R. revert B ST. induction R as [x|x y z N R IH]; intros B ST; [exact B|]. apply IH; [apply (ST x y); [constructor | exact B | exact N]|].
  intros w v RW PW I. exact (ST w v (rc_step _ _ _ N RW) PW I).
Qed.
Lemma before {A} (l a b c e : list A) x y : NoDup l -> l = a ++ x :: b -> l = c ++ y :: e -> In y b -> In x c.
Proof.
  revert l a. induction c as [|z c IH]; intros l a ND E1 E2 I; cbn [app] in E2; subst l.
  - destruct a as [|a1 a]; injection E2 as -> E2; subst; inversion ND as [|? ? N _]; subst; exfalso; apply N; [exact I|]. apply in_or_app. right. right. exact I.
  - destruct a as [|a1 a]; injection E2 as -> E2; [left; reflexivity|]. right. inversion ND as [|? ? _ ND2]; subst. exact (IH _ a ND2 eq_refl E2 I).
Qed.

Lemma NoDup_both {A} (a b : list A) : NoDup a -> NoDup b -> (forall x, In x a -> ~ In x b) -> NoDup (a ++ b).
Proof.
  induction 1 as [|x a N NA IH]; intros NB D; cbn [app]; [exact NB|]. constructor.
  - intros I. apply in_app_or in I as [I|I]; [exact (N I) | exact (D x (or_introl eq_refl) I)].
  - apply IH; [exact NB | intros y I; apply D; right; exact I].
Qed.

Section Doc.
Variable d : docx.
Notation body := (dx_body d).
Notation all := (w_all "w:tbl" body).
Hypotheses (DI : distinct d) (SP : spans_ok d).

Lemma nd_below : NoDup (map w_id (below body)).
Proof. unfold distinct in DI. cbn [map] in DI. inversion DI; assumption. Qed.
Lemma nd_all : NoDup (map w_id all).
Proof.
  pose proof nd_below as N. unfold w_all. revert N. apply sub_NoDup, sub_map. induction (below body) as [|x l IH]; cbn [filter]; [constructor|].
  destruct (is_tag _ x); [apply sub_take | apply sub_skip]; exact IH.
Qed.
Lemma nd_all' : NoDup all. Proof. exact (NoDup_map_inv _ _ nd_all). Qed.
Lemma in_all x : In x all <-> In x (below body) /\ is_tag "w:tbl" x = true.
Proof. unfold w_all. apply filter_In. Qed.
Lemma same_id x y : In x all -> In y all -> w_id x = w_id y -> x = y.
Proof. exact (NoDup_app_inj w_id all x y nd_all). Qed.
(** What is below an element of the document stands right after it. *)
Lemma all_split x : In x all -> exists A B, all = A ++ x :: filter (is_tag "w:tbl") (below x) ++ B.
Proof.
  intros I. apply in_all in I as [I T]. destruct (below_split body x (or_intror I)) as (A & B & E). unfold nodes in E. destruct A as [|a A].
  - cbn [app] in E. injection E as <- _. exfalso. unfold distinct in DI. cbn [map] in DI. inversion DI as [|? ? N _]; subst. apply N, in_map. exact I.
  - cbn [app] in E. injection E as _ E. unfold w_all. rewrite E, filter_app. cbn [filter app]. rewrite T, filter_app. eauto.
Qed.
Lemma nested_all x y : In x all -> In y (nested_tables x) -> In y all.
Proof.
  intros I J. destruct (all_split x I) as (A & B & ->). apply in_or_app. right. right. apply in_or_app. left. apply filter_In.
  split; [exact (nested_below _ _ J) | exact (proj1 (nested_parent _ _ J))].
Qed.
Lemma reach_all x y : In x all -> reach x y -> In y all.
Proof. intros I R. revert I. induction R as [|x y z N R IH]; intros I; [exact I|]. apply IH. exact (nested_all _ _ I N). Qed.
Lemma nested_unique x x' y : In x all -> In x' all -> In y (nested_tables x) -> In y (nested_tables x') -> x = x'.
Proof.
  intros I I' J J'. apply in_all in I as [I _]. apply in_all in I' as [I' _].
  apply nested_parent in J as (_ & tr & tc & A & B & C). apply nested_parent in J' as (_ & tr' & tc' & A' & B' & C').
  assert (N : In x (nodes body)) by (right; exact I). assert (N' : In x' (nodes body)) by (right; exact I').
  assert (U := parent_unique body DI).
  pose proof (kid_node _ _ _ N A) as K1. pose proof (kid_node _ _ _ N' A') as K1'. pose proof (kid_node _ _ _ K1 B) as K2. pose proof (kid_node _ _ _ K1' B') as K2'.
  rewrite <- (U tc tc' y K2 K2' C C') in B'. rewrite <- (U tr tr' tc K1 K1' B B') in A'. exact (U x x' tr N N' A A').
Qed.
Lemma nested_after x y c e : In x all -> In y (nested_tables x) -> all = c ++ y :: e -> In x c.
Proof.
  intros I J E. destruct (all_split x I) as (A & B & E2). apply (before all A (filter (is_tag "w:tbl") (below x) ++ B) c e x y nd_all' E2 E).
  apply in_or_app. left. apply filter_In. split; [exact (nested_below _ _ J) | exact (proj1 (nested_parent _ _ J))].
Qed.
Lemma not_earlier x y c e : all = c ++ x :: e -> reach x y -> ~ In y c.
Proof.
  intros E R. assert (IX : In x all) by (rewrite E; apply in_or_app; right; left; reflexivity).
  assert (NX : ~ In x c). { intros I. pose proof nd_all' as N. rewrite E in N. apply NoDup_split in N as (_ & _ & N). exact (N x I (or_introl eq_refl)). }
  revert y R. apply reach_ind_r; [exact NX|]. intros z y R NZ N I. apply in_split in I as (c1 & c2 & ->). rewrite <- app_assoc in E.
  apply NZ, in_or_app. left. exact (nested_after z y c1 _ (reach_all _ _ IX R) N E).
Qed.
Definition placed (x : welem) : bool := existsb (fun y => existsb (fun z => w_id z =? w_id x)%N (nested_tables y)) all.
Lemma placed_iff x : In x all -> placed x = true <-> in_place d x.
Proof.
  intros I. unfold placed, in_place. rewrite existsb_exists. split.
  - intros (y & Y & E). apply existsb_exists in E as (z & Z & E). apply N.eqb_eq in E. exists y. split; [exact Y|].
    rewrite <- (same_id z x (nested_all _ _ Y Z) I E). exact Z.
  - intros (y & Y & Z). exists y. split; [exact Y|]. apply existsb_exists. exists x. split; [exact Z | apply N.eqb_refl].
Qed.
Lemma idl_reach t k i : table_tree t k -> In i (idl [k]) <-> exists X, reach t X /\ w_id X = i.
Proof.
  intros T. unfold idl. cbn [flat_map]. rewrite app_nil_r, in_map_iff. split; intros (X & A & B).
  - exists X. split; [apply (tree_reach t k T); exact B | exact A].
  - exists X. split; [exact B | apply (tree_reach t k T); exact A].
Qed.

Definition inv (pre : list welem) (s : seen) : Prop :=
  (forall t, In t pre -> In (w_id t) s)
  /\ (forall x y, In x all -> In (w_id x) s -> In y (nested_tables x) -> In (w_id y) s)
  /\ (forall i, In i s -> exists t, In t all /\ w_id t = i /\ (In t pre \/ exists x, In x all /\ In t (nested_tables x) /\ In (w_id x) s)).

Lemma loop_trees : forall post pre s us s', all = pre ++ post -> inv pre s -> parse_tables d post s = DOk (us, s') ->
  exists ks, Forall2 table_tree (filter (fun t => negb (placed t)) post) ks /\ Forall2 (fun u k => unit_trees (read_as d) u [k]) us ks
    /\ NoDup (idl ks) /\ disjoint (idl ks) s /\ (forall i, In i s' <-> In i s \/ In i (idl ks)) /\ (forall t, In t all -> In (w_id t) s').
Proof.
  induction post as [|t post IH]; intros pre s us s' E (V1 & V2 & V3) H; cbn [parse_tables] in H.
  { injection H as <- <-. exists []. repeat split; try constructor; try (intros i []; fail); [tauto | cbn; tauto|]. rewrite app_nil_r in E. rewrite E. exact V1. }
  destruct (parse_table _ t s) as [[u s1]| |] eqn:PT; cbn [dbind] in H; try discriminate.
  destruct (parse_tables d post s1) as [[us2 s2]| |] eqn:PR; cbn [dbind] in H; try discriminate. injection H as <- <-.
  assert (IT : In t all) by (rewrite E; apply in_or_app; right; left; reflexivity).
  assert (E' : all = (pre ++ [t]) ++ post) by (rewrite <- app_assoc; exact E).
  assert (NP : ~ In t pre) by (intros I; exact (not_earlier t t pre post E (rc_refl t) I)).
  cbn [filter]. destruct (in_dec N.eq_dec (w_id t) s) as [S|S].
  - destruct (table_old _ _ _ _ _ PT S) as [-> ->].
    assert (PL : placed t = true).
    { apply (placed_iff t IT). destruct (V3 _ S) as (t' & T' & EI & [Q|(x & X & N & _)]).
      - rewrite (same_id t' t T' IT EI) in Q. contradiction.
      - rewrite (same_id t' t T' IT EI) in N. exists x. auto. }
    rewrite PL. cbn [negb]. apply (IH (pre ++ [t])); [exact E'| |exact PR]. split; [|split; [exact V2|]].
    + intros q Q. apply in_app_or in Q as [Q|[<-|[]]]; [exact (V1 q Q) | exact S].
    + intros i I. destruct (V3 i I) as (q & A & B & [C|C]); exists q; (split; [exact A|split; [exact B|]]); [left; apply in_or_app; left; exact C | right; exact C].
  - assert (PL : placed t = false).
    { destruct (placed t) eqn:P; [|reflexivity]. exfalso. apply (placed_iff t IT) in P as (x & X & N). apply S.
      exact (V2 x t X (V1 x (nested_after x t pre post X N E)) N). }
    rewrite PL. cbn [negb]. destruct (tree_exists t) as [k T].
    assert (FR : forall X, reach t X -> ~ In (w_id X) s).
    { apply reach_ind_r; [exact S|]. intros z y R NZ N I. destruct (V3 _ I) as (q & Q & EQ & C). pose proof (reach_all t z IT R) as ZA.
      rewrite (same_id q y Q (nested_all z y ZA N) EQ) in C. destruct C as [C|(x & X & N' & SX)].
      - exact (not_earlier t y pre post E (reach_trans _ _ _ R (rc_step _ _ _ N (rc_refl y))) C).
      - rewrite (nested_unique z x y ZA X N N') in NZ. contradiction. }
    assert (NK : NoDup (idl [k])).
    { unfold idl. cbn [flat_map]. rewrite app_nil_r. apply (sub_NoDup _ (map w_id (nodes t))); [apply sub_map; exact (tree_sub t k T)|].
      destruct (below_split body t (or_intror (proj1 (proj1 (in_all t) IT)))) as (A & B & EB). pose proof DI as ND. unfold distinct in ND. fold (nodes body) in ND. rewrite EB, !map_app in ND.
      apply NoDup_split in ND as (_ & ND & _). apply NoDup_split in ND as (ND & _). exact ND. }
    assert (DJ : disjoint (idl [k]) s) by (intros i I; apply (idl_reach t k i T) in I as (X & R & <-); exact (FR X R)).
    destruct (any_trees d (any_fuel (w_kids t))) as [AF AO].
    destruct (table_trees d _ t s u s1 k AF AO PT T NK DJ) as (u0 & -> & UT & SI).
    { apply Forall_forall. intros X I. apply (tree_reach t k T) in I. intros tc n C G. apply spans_columns_iff in G. exact (SP X tc n (reach_all t X IT I) C G). }
    destruct (IH (pre ++ [t]) s1 us2 s2 E') as (ks & F1 & F2 & N2 & D2 & S2 & A2).
    + split; [|split].
      * intros q Q. apply SI. apply in_app_or in Q as [Q|[<-|[]]]; [left; exact (V1 q Q) | right; apply (idl_reach t k _ T); exists t; split; [constructor | reflexivity]].
      * intros x y X I N. apply SI. apply SI in I as [I|I]; [left; exact (V2 x y X I N)|]. right. apply (idl_reach t k _ T) in I as (z & R & EZ).
        rewrite (same_id z x (reach_all t z IT R) X EZ) in R. apply (idl_reach t k _ T). exists y. split; [exact (reach_trans _ _ _ R (rc_step _ _ _ N (rc_refl y))) | reflexivity].
      * intros i I. apply SI in I as [I|I].
        -- destruct (V3 i I) as (q & A & B & [C|(x & X & N & SX)]); exists q; (split; [exact A|split; [exact B|]]); [left; apply in_or_app; left; exact C|].
           right. exists x. split; [exact X|]. split; [exact N|]. apply SI. left. exact SX.
        -- apply (idl_reach t k _ T) in I as (X & R & EX). exists X. split; [exact (reach_all t X IT R)|]. split; [exact EX|].
           destruct (reach_last _ _ R) as [<-|(z & RZ & N)]; [left; apply in_or_app; right; left; reflexivity|]. right. exists z. split; [exact (reach_all t z IT RZ)|]. split; [exact N|].
           apply SI. right. apply (idl_reach t k _ T). exists z. auto.
    + exact PR.
    + exists (k :: ks). split; [constructor; assumption|]. split; [constructor; assumption|]. change (k :: ks) with ([k] ++ ks). rewrite idl_app.
      split; [|split; [|split; [|exact A2]]].
      * apply NoDup_both; [exact NK | exact N2|]. intros i I J. apply (D2 i J). apply SI. right. exact I.
      * intros i I J. apply in_app_or in I as [I|I]; [exact (DJ i I J) | apply (D2 i I), SI; left; exact J].
      * intros i. rewrite S2, SI, in_app_iff. tauto.
Qed.

Theorem doc_trees us : parse_docx d = DOk us ->
  exists ks, Forall2 table_tree (filter (fun t => negb (placed t)) all) ks /\ Forall2 (fun u k => unit_trees (read_as d) u [k]) us ks
    /\ Permutation (flat_map tree_tables ks) all.
Proof.
  unfold parse_docx. destruct (parse_tables d all []) as [[l s]| |] eqn:P; cbn [dbind]; try discriminate. intros [= <-].
  destruct (loop_trees all [] [] l s eq_refl) as (ks & F1 & F2 & N & _ & S & A); [split; [intros t []|split; [intros x y _ []|intros i []]] | exact P|].
  exists ks. split; [exact F1|]. split; [exact F2|]. assert (INC : forall x, In x (flat_map tree_tables ks) -> In x all).
  { assert (G : forall x, In x (filter (fun t => negb (placed t)) all) -> In x all) by (intros x I; apply filter_In in I as [I _]; exact I).
    revert G F1. generalize (filter (fun t => negb (placed t)) all). clear - DI SP. intros l G F. induction F as [|t k l ks T F IH]; intros x I; cbn [flat_map] in I; [destruct I|].
    apply in_app_or in I as [I|I]; [exact (reach_all t x (G t (or_introl eq_refl)) (proj1 (tree_reach t k T x) I)) | apply IH; [intros y Y; apply G; right; exact Y | exact I]]. }
  apply NoDup_Permutation; [exact (NoDup_map_inv _ _ N) | exact nd_all'|]. intros x. split; [exact (INC x)|]. intros I. pose proof (A x I) as J. apply S in J as [[]|J].
  unfold idl in J. apply in_map_iff in J as (y & E & Y). rewrite <- (same_id y x (INC y Y) I E). exact Y.
Qed.
End Doc.
