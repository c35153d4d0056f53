(** Proofs for C79: the tables in the cells of a table are shown in the cells of its element. *)
From Coq Require Import NArith ZArith List Bool String Lia.
From Verif Require Import QueryProofs RunProofs PyStr PyStrFacts Xml Docx Render Lint RowIter Helpers Extract Document
  SpecText SpecFields SpecLabel SpecHeader SpecRows SpecTable SpecDoc SpecRun SpecReads SpecFmt SpecDocx SpecGrid SpecHtml SpecTables SpecEnd SpecDeep
  MFacts LabelProofs HeaderProofs RowProofs TableProofs GridProofs HtmlProofs TableHtml RestoreProofs
  Prop_Label Prop_Docx Prop_Grid TablesOnce Prop_Tables EndProofs EndRows.
Import ListNotations.
Local Open Scope string_scope.
Local Open Scope list_scope.

Notation outs := (flat_map (fun k : kid => outer_tables (fst k))).

(** ** Lists *)
Lemma Forall2_split {A B} (R : A -> B -> Prop) a1 a2 b1 b2 : Forall2 R (a1 ++ a2) (b1 ++ b2) -> List.length a1 = List.length b1 -> Forall2 R a1 b1 /\ Forall2 R a2 b2.
Proof.
  revert b1. induction a1 as [|a a1 IH]; intros [|b b1] F L; try discriminate; [split; [constructor | exact F]|]. cbn [app] in F. inversion F; subst. injection L as L.
  destruct (IH b1 ltac:(assumption) L) as [X Y]. split; [constructor; assumption | exact Y].
Qed.
Lemma Forall2_shares {A B C D} (R : C -> D -> Prop) (f : A -> list C) (g : B -> list D) l m :
  Forall2 (fun a b => List.length (g b) <= List.length (f a))%nat l m -> Forall2 R (flat_map f l) (flat_map g m) -> Forall2 (fun a b => Forall2 R (f a) (g b)) l m.
Proof.
  assert (LE : forall l m, Forall2 (fun a b => List.length (g b) <= List.length (f a))%nat l m -> (List.length (flat_map g m) <= List.length (flat_map f l))%nat).
  { induction 1 as [|a b l' m' H _ IH]; [reflexivity|]. cbn [flat_map]. rewrite !app_length. lia. }
  intros F. induction F as [|a b l m H F IH]; intros G; [constructor|]. cbn [flat_map] in G.
  pose proof (Forall2_length _ _ _ G) as L. rewrite !app_length in L. pose proof (LE _ _ F) as LF.
  destruct (Forall2_split R _ _ _ _ G ltac:(lia)) as [X Y]. constructor; [exact X | exact (IH Y)].
Qed.
Lemma Forall2_nth_in {A B} (R : A -> B -> Prop) l m : List.length l = List.length m ->
  (forall i a b, nth_error l i = Some a -> nth_error m i = Some b -> R a b) -> Forall2 R l m.
Proof.
  revert m. induction l as [|a l IH]; intros [|b m] L H; try discriminate; constructor; [exact (H 0%nat a b eq_refl eq_refl)|]. apply IH; [injection L as L; exact L|].
  intros i x y X Y. exact (H (S i) x y X Y).
Qed.
Lemma flat_map_map' {A B C} (f : A -> B) (g : B -> list C) l : flat_map g (map f l) = flat_map (fun a => g (f a)) l.
Proof. induction l as [|a l IH]; [reflexivity|]. cbn [map flat_map]. rewrite IH. reflexivity. Qed.

Section Tables.
Variables (tr cr : list (str * list (str * str))) (d : docx).

Definition is_tb (k : kid) : bool := seqb (e_tag (fst k)) t_table.
Lemma unit_outs us ks : units_show tr cr us ks -> outs ks = map fst (filter is_tb ks).
Proof.
  intros US. induction US as [|u us e tail ks SW BT US IH]; [reflexivity|]. cbn [flat_map fst filter]. unfold is_tb at 1. cbn [fst].
  inversion SW as [sps x kk BX F | l its e' LS | wid id rows x kk BX RS]; subst.
  - rewrite outer_elem, (spans_none _ _ _ F). change (is_table (utf8 "p")) with false. change (seqb (e_tag (Elem (utf8 "p") [] x kk)) t_table) with false. exact IH.
  - rewrite (proj1 (lists_none tr) _ _ _ LS). inversion LS; subst. cbn [e_tag]. change t_table with (utf8 "table"). fold (is_table (lvl_tag l)). rewrite lvl_tag_no. exact IH.
  - rewrite outer_elem. change (is_table (utf8 "table")) with true. cbn [e_tag]. change (utf8 "table") with t_table. rewrite seqb_refl. cbn [map fst app]. f_equal. exact IH.
Qed.
Lemma any_count : forall fuel st s us s' ks, parse_any d fuel st s = DOk (us, s') -> units_show tr cr us ks -> (List.length (outs ks) <= List.length (tbls st))%nat.
Proof.
  induction fuel as [|f IH]; intros st s us s' ks H US; [discriminate|]. cbn [parse_any] in H.
  destruct st as [|cur rest]; [injection H as <- <-; inversion US; subst; reflexivity|].
  destruct (is_tag "w:tbl" cur) eqn:TT.
  - destruct (parse_table (parse_any d f) cur s) as [[t s1]| |] eqn:PT; cbn [dbind] in H; try discriminate.
    destruct (parse_any d f rest s1) as [[us1 s2]| |] eqn:PA; cbn [dbind] in H; try discriminate. injection H as <- <-.
    unfold tbls. cbn [filter]. rewrite TT. cbn [List.length]. fold (tbls rest). destruct t as [u|].
    + assert (exists wid id rows, u = HTable wid id rows) as (wid & id & rows & ->).
      { unfold parse_table in PT. destruct (mem_id _ _); [discriminate|]. destruct (grid cur); cbn [dbind] in PT; try discriminate.
        destruct (parse_rows _ _ _) as [[rw s3]| |]; cbn [dbind] in PT; try discriminate. injection PT as <- <-. eauto. }
      inversion US as [|? ? e tail ks' SW BT US']; subst. inversion SW as [| |? ? ? x kk BX RS]; subst. cbn [flat_map fst]. rewrite outer_elem. change (is_table (utf8 "table")) with true.
      cbn [app List.length]. specialize (IH _ _ _ _ _ PA US'). lia.
    + specialize (IH _ _ _ _ _ PA US). lia.
  - destruct (is_tag "w:p" cur) eqn:TP.
    + apply is_tag_iff in TP. destruct (is_list_p d cur) as [lp| |] eqn:LP; cbn [dbind] in H; try discriminate. destruct lp.
      * destruct (parse_list d (cur :: rest)) as [[u st']| |] eqn:PL; cbn [dbind] in H; try discriminate. destruct (list_no_tables _ _ _ _ _ TP LP PL) as (E & l & its & ->).
        destruct (parse_any d f st' s) as [[us1 s2]| |] eqn:PA; cbn [dbind] in H; try discriminate. injection H as <- <-. rewrite E.
        inversion US as [|? ? e tail ks' SW BT US']; subst. inversion SW as [|? ? ? LS|]; subst. cbn [flat_map fst]. rewrite (proj1 (lists_none tr) _ _ _ LS). exact (IH _ _ _ _ _ PA US').
      * unfold parse_paragraph in H. destruct (parse_spans d cur) as [sps| |] eqn:PS; cbn [dbind] in H; try discriminate.
        destruct (parse_any d f rest s) as [[us1 s2]| |] eqn:PA; cbn [dbind] in H; try discriminate. injection H as <- <-.
        unfold tbls. cbn [filter]. rewrite TT. fold (tbls rest). destruct sps as [|sp sps]; [exact (IH _ _ _ _ _ PA US)|].
        inversion US as [|? ? e tail ks' SW BT US']; subst. inversion SW as [? x kk BX F| |]; subst. cbn [flat_map fst]. rewrite outer_elem, (spans_none _ _ _ F). exact (IH _ _ _ _ _ PA US').
    + unfold tbls. cbn [filter]. rewrite TT. fold (tbls rest). exact (IH _ _ _ _ _ H US).
Qed.

(** [e] shows the table [x] with all tables nested in it. *)
Definition whole (x : welem) (e : elem) : Prop := exists t, table_tree x t /\ tree_shown d tr cr t e.
Lemma whole_renders x e : whole x e -> renders d tr cr x e.
Proof. intros (t & TT & TS). inversion TT; subst. inversion TS; subst. assumption. Qed.
Lemma whole_inner x e : whole x e -> Forall2 whole (nested_tables x) (inner_tables e).
Proof.
  intros (t & TT & TS). inversion TT as [? l F]; subst. inversion TS as [? ? ? _ G]; subst.
  assert (Q : forall xs l es, Forall2 table_tree xs l -> Forall2 (tree_shown d tr cr) l es -> Forall2 whole xs es).
  { clear. intros xs l es F. revert es. induction F as [|y k xs l H F IH]; intros es G; inversion G; subst; constructor; [exists k; auto | apply IH; assumption]. }
  exact (Q _ _ _ F G).
Qed.

Lemma row_places tcs cs : Forall2 is_wcell tcs cs -> forall k, filter own_place tcs = map (fun p => wc_tc (snd p)) (filter (fun p => negb (wc_cont (snd p))) (SpecGrid.placed k cs)).
Proof.
  induction 1 as [|tc c tcs cs W F IH]; intros k; [reflexivity|]. apply is_wcell_iff in W as (E & P & GS & vm & VM & CV). cbn [filter SpecGrid.placed snd].
  assert (O : own_place tc = negb (wc_cont c)).
  { unfold own_place. rewrite VM, GS. replace (1 <=? Z.of_nat (wc_span c))%Z with true by (symmetry; apply Z.leb_le; lia).
    destruct (wc_cont c) eqn:C; [rewrite (proj1 CV eq_refl); reflexivity|]. destruct vm; try reflexivity. discriminate (proj2 CV eq_refl). }
  rewrite O. destruct (negb (wc_cont c)); [cbn [map snd]; rewrite E; f_equal|]; apply IH.
Qed.
Lemma nested_rows tbl rows : layout tbl rows -> nested_tables tbl = flat_map (fun row => flat_map (fun p => w_children "w:tbl" (wc_tc (snd p))) (own_cells row)) rows.
Proof.
  unfold layout, nested_tables, SpecTables.table_cells. intros F. induction F as [|t cs trs rows H F IH]; [reflexivity|]. cbn [flat_map]. rewrite filter_app, flat_map_app, IH. f_equal.
  rewrite (row_places _ _ H 0). unfold own_cells. apply flat_map_map'.
Qed.

Lemma cell_outs fuel rows r p k : cell_shown tr cr (parse_any d fuel) rows r p k ->
  outer_tables (fst k) = children t_table (fst k) /\ (List.length (children t_table (fst k)) <= List.length (w_children "w:tbl" (wc_tc (snd p))))%nat.
Proof.
  intros (a & ks & tail & n & us & s1 & s2 & -> & _ & _ & _ & _ & PA & US). cbn [fst]. unfold children, kids_of. cbn [e_kids].
  change (filter (fun k => seqb (e_tag (fst k)) t_table) ks) with (filter is_tb ks). rewrite <- (unit_outs _ _ US). split; [|exact (any_count _ _ _ _ _ _ PA US)].
  rewrite outer_elem, cell_tag_no. reflexivity.
Qed.

Theorem whole_cells fuel tbl rows s u s' e : layout tbl rows -> aligned rows -> parse_table (parse_any d fuel) tbl s = DOk (Some u, s') -> shows tr cr u e -> whole tbl e ->
  forall r row x ks tail, nth_error rows r = Some row -> nth_error (e_kids e) r = Some (Elem (utf8 "tr") [] x ks, tail) ->
    Forall2 (fun p k => Forall2 whole (w_children "w:tbl" (wc_tc (snd p))) (children t_table (fst k))) (own_cells row) ks.
Proof.
  intros LY AL PT SW WH. destruct (TableHtml.table_cells _ _ _ _ _ _ _ _ _ LY AL PT SW) as (TG & LN & N).
  pose proof (whole_inner _ _ WH) as F. rewrite (nested_rows _ _ LY) in F. unfold inner_tables in F.
  assert (CO : forall i row0 k0, nth_error rows i = Some row0 -> nth_error (e_kids e) i = Some k0 ->
    exists x ks tail, k0 = (Elem (utf8 "tr") [] x ks, tail) /\ outer_tables (fst k0) = flat_map (fun k : kid => children t_table (fst k)) ks
      /\ Forall2 (fun p k => List.length (children t_table (fst k)) <= List.length (w_children "w:tbl" (wc_tc (snd p))))%nat (own_cells row0) ks).
  { intros i row0 k0 R K. destruct (N i row0 R) as (x & ks & tail & K' & _ & _ & FC). pose proof (eq_trans (eq_sym K) K') as KK; injection KK as ->. exists x, ks, tail. split; [reflexivity|]. cbn [fst].
    assert (OE : outer_tables (Elem (utf8 "tr") [] x ks) = outs ks) by (rewrite outer_elem; reflexivity).
    enough (Q : outs ks = flat_map (fun k : kid => children t_table (fst k)) ks
      /\ Forall2 (fun p k => List.length (children t_table (fst k)) <= List.length (w_children "w:tbl" (wc_tc (snd p))))%nat (own_cells row0) ks)
      by (split; [exact (eq_trans OE (proj1 Q)) | exact (proj2 Q)]).
    clear - FC. induction FC as [|p k own ks CK _ IH]; [split; [reflexivity | constructor]|]. destruct (cell_outs _ _ _ _ _ CK) as [E L].
    destruct IH as [IH1 IH2]. split; [cbn [flat_map]; rewrite IH1; f_equal; exact E | constructor; assumption]. }
  apply (Forall2_shares whole _ (fun k : kid => outer_tables (fst k))) in F.
  2:{ apply Forall2_nth_in; [symmetry; exact LN|]. intros i row0 k0 R K. destruct (CO i row0 k0 R K) as (x & ks & tail & -> & E & FL). rewrite E. clear - FL.
      induction FL as [|p k own ks L _ IH]; [reflexivity|]. cbn [flat_map]. rewrite !app_length. lia. }
  intros r row x ks tail R K. destruct (CO r row _ R K) as (x' & ks' & tail' & EQ & E & FL). injection EQ as <- <- <-.
  assert (FR : Forall2 whole (flat_map (fun p => w_children "w:tbl" (wc_tc (snd p))) (own_cells row)) (outer_tables (Elem (utf8 "tr") [] x ks))).
  { revert F R K. clear. generalize (e_kids e). intros kl F. revert r. induction F as [|row0 k0 rows kl H _ IH]; intros [|r] R K; try discriminate.
    - injection R as ->. cbn in K. injection K as ->. exact H.
    - exact (IH r R K). }
  cbn [fst] in E. rewrite E in FR. exact (Forall2_shares whole _ _ _ _ FL FR).
Qed.
End Tables.
