(** Property C44: every table of a docx document is rendered exactly once, where it belongs. *)
From Coq Require Import NArith ZArith List Bool String Lia Permutation.
From Verif Require Import PyStr PyStrFacts Xml Docx Render SpecFmt SpecGrid SpecHtml SpecList SpecDocx SpecTables GridProofs HtmlProofs ListProofs.
From Verif Require Import Lint RowIter Helpers Extract Document Output Prop_Html Prop_List Prop_Docx TablesOnce.
Import ListNotations.
Local Open Scope string_scope.
Local Open Scope list_scope.
Local Open Scope N_scope.

(** ** Elements *)

Definition is_table (t : str) : bool := seqb t (utf8 "table").
Notation outs := (flat_map (fun k : kid => outer_tables (fst k))).
Lemma outer_elem t a x ks : outer_tables (Elem t a x ks) = if is_table t then [Elem t a x ks] else outs ks.
Proof. reflexivity. Qed.
Lemma esize_kid t a x ks (k : kid) : In k ks -> (esize (fst k) < esize (Elem t a x ks))%nat.
Proof.
  intros I. cbn [esize]. induction ks as [|q ks IH]; [destruct I|]. cbn [map list_sum fold_right]. unfold list_sum in *. cbn [map fold_right].
  destruct I as [->|I]; [destruct k; cbn [fst]; lia | specialize (IH I); lia].
Qed.
Lemma esize_ind (P : elem -> Prop) : (forall e, (forall x, (esize x < esize e)%nat -> P x) -> P e) -> forall e, P e.
Proof.
  intros H e. assert (G : forall n e, (esize e < n)%nat -> P e).
  { induction n as [|n IH]; intros x L; [lia|]. apply H. intros y Y. apply IH. lia. }
  apply (G (S (esize e))). lia.
Qed.
Lemma flat_ext_in {A B} (f g : A -> list B) l : (forall a, In a l -> f a = g a) -> flat_map f l = flat_map g l.
Proof. induction l as [|a l IH]; intros H; cbn [flat_map]; [reflexivity|]. rewrite (H a (or_introl eq_refl)), IH; [reflexivity | intros b I; apply H; right; exact I]. Qed.
Lemma table_outer : forall e, table_elems e = flat_map table_elems (outer_tables e).
Proof.
  induction e as [e IH] using esize_ind. destruct e as [t a x ks]. rewrite outer_elem. destruct (is_table t) eqn:T.
  - cbn [flat_map]. rewrite app_nil_r. reflexivity.
  - cbn [table_elems]. unfold is_table in T. rewrite T. cbn [app]. rewrite flat_flat. apply flat_ext_in. intros k K. apply IH. exact (esize_kid t a x ks k K).
Qed.
Lemma table_inner e : is_table (e_tag e) = true -> table_elems e = e :: flat_map table_elems (inner_tables e).
Proof.
  destruct e as [t a x ks]. cbn [e_tag table_elems]. unfold is_table. intros T. rewrite T. cbn [app]. f_equal. unfold inner_tables. cbn [e_kids]. rewrite flat_flat.
  apply flat_ext_in. intros k _. apply table_outer.
Qed.

(** ** What is rendered has the nesting of what was read *)

Section Shown.
Variable d : docx.
Variables tr cr : list (str * list (str * str)).
Notation shown := (tree_shown d tr cr).

Lemma spans_none sps ks : Forall2 (span_shows tr) sps ks -> outs ks = [].
Proof. induction 1 as [|sp k sps ks (a & -> & _) F IH]; [reflexivity|]. cbn [flat_map fst]. rewrite outer_elem. change (is_table (utf8 "span")) with false. exact IH. Qed.
Lemma lvl_tag_no l : is_table (lvl_tag l) = false.
Proof. unfold lvl_tag. destruct (is_ordered l); reflexivity. Qed.
Scheme list_shows_i := Minimality for list_shows Sort Prop with items_show_i := Minimality for items_show Sort Prop.
Combined Scheme lists_ind from list_shows_i, items_show_i.
Lemma lists_none : (forall l its e, list_shows tr l its e -> outer_tables e = []) /\ (forall its ks, items_show tr its ks -> outs ks = []).
Proof.
  apply lists_ind.
  - intros l its x ks _ _ E. rewrite outer_elem, lvl_tag_no. exact E.
  - reflexivity.
  - intros sps its x ks tail rest _ _ _ F _ E. cbn [flat_map fst]. rewrite outer_elem, (spans_none _ _ F), E. reflexivity.
  - intros sps l sub its x ks e tl tail rest _ _ _ F _ E _ E2. cbn [flat_map fst]. rewrite outer_elem, flat_map_app, (spans_none _ _ F). cbn [flat_map fst]. rewrite E, E2. reflexivity.
  - intros l sub its x e tl tail rest _ _ _ _ E _ E2. cbn [flat_map fst]. rewrite outer_elem. cbn [flat_map fst]. rewrite E, E2. reflexivity.
Qed.

Definition plain_tags (rows : list (list tcell)) : Prop := Forall (Forall (fun t => is_table (tc_tag t) = false)) rows.
Lemma cell_tag_no tc : is_table (cell_tag tc) = false.
Proof. unfold cell_tag. destruct (cell_fill tc) as [f|]; [|reflexivity]. destruct (_ && _); reflexivity. Qed.
Lemma row_tags pa row : forall s cells s', parse_row pa row s = DOk (cells, s') -> Forall (fun t => is_table (tc_tag t) = false) cells.
Proof.
  induction row as [|[i g] row IH]; intros s cells s' H; cbn [parse_row] in H; [injection H as <- _; constructor|].
  destruct (pa _ s) as [[us s1]| |]; cbn [dbind] in H; try discriminate. destruct (parse_row pa row s1) as [[cs s2]| |] eqn:P; cbn [dbind] in H; try discriminate. injection H as <- _.
  constructor; [apply cell_tag_no | exact (IH _ _ _ P)].
Qed.
Lemma rows_tags pa rows : forall s cells s', parse_rows pa rows s = DOk (cells, s') -> plain_tags cells.
Proof.
  induction rows as [|row rows IH]; intros s cells s' H; cbn [parse_rows] in H; [injection H as <- _; constructor|].
  destruct (parse_row pa row s) as [[cs s1]| |] eqn:P; cbn [dbind] in H; try discriminate. destruct (parse_rows pa rows s1) as [[css s2]| |] eqn:Q; cbn [dbind] in H; try discriminate. injection H as <- _.
  constructor; [exact (row_tags _ _ _ _ _ P) | exact (IH _ _ _ Q)].
Qed.
Lemma read_tags w i rows x : read_as d (HTable w i rows) x -> plain_tags rows.
Proof.
  intros (f & s & s' & H). unfold parse_table in H. destruct (mem_id _ s); [discriminate|]. destruct (grid x) as [m| |]; cbn [dbind] in H; try discriminate.
  destruct (parse_rows _ m _) as [[rs s1]| |] eqn:P; cbn [dbind] in H; try discriminate. injection H as <- <- <- _. exact (rows_tags _ _ _ _ _ P).
Qed.

Scheme ut_i := Minimality for unit_trees Sort Prop with rwt_i := Minimality for rows_trees Sort Prop with clt_i := Minimality for cells_trees Sort Prop with uts_i := Minimality for units_trees Sort Prop.
Combined Scheme trees_ind from ut_i, rwt_i, clt_i, uts_i.
Lemma trees_shown :
  (forall u l, unit_trees (read_as d) u l -> forall e, shows tr cr u e -> Forall2 shown l (outer_tables e))
  /\ (forall y rows l, rows_trees (read_as d) y rows l -> forall ks, plain_tags rows -> rows_show tr cr y rows ks -> Forall2 shown l (outs ks))
  /\ (forall y x row l, cells_trees (read_as d) y x row l -> forall ks, Forall (fun t => is_table (tc_tag t) = false) row -> cells_show tr cr y x row ks -> Forall2 shown l (outs ks))
  /\ (forall us l, units_trees (read_as d) us l -> forall ks, units_show tr cr us ks -> Forall2 shown l (outs ks)).
Proof.
  apply trees_ind.
  - intros sps e SW. inversion SW as [? x ks B F| |]; subst. rewrite outer_elem. change (is_table (utf8 "p")) with false. cbv iota. rewrite (spans_none _ _ F). constructor.
  - intros l its e SW. inversion SW as [|? ? ? LS|]; subst. rewrite (proj1 lists_none _ _ _ LS). constructor.
  - intros wid id rows x l RA _ IH e SW. assert (SW' := SW). inversion SW as [| |? ? ? y ks B RS]; subst. rewrite outer_elem. change (is_table (utf8 "table")) with true. cbv iota.
    constructor; [|constructor]. constructor; [exists (HTable wid id rows); split; assumption|]. unfold inner_tables. cbn [e_kids]. exact (IH ks (read_tags _ _ _ _ RA) RS).
  - intros y ks _ RS. inversion RS; subst. constructor.
  - intros y row rows a b _ IHc _ IHr ks PT RS. inversion RS as [|? ? ? x cs tail rest B1 B2 CS RS2]; subst. inversion PT as [|? ? P1 P2]; subst. cbn [flat_map fst]. rewrite outer_elem.
    change (is_table (utf8 "tr")) with false. cbv iota. apply Forall2_app; [exact (IHc cs P1 CS) | exact (IHr rest P2 RS2)].
  - intros y x ks _ CS. inversion CS; subst. constructor.
  - intros y x t ts a O _ IH ks P CS. inversion P as [|? ? _ P2]; subst. inversion CS as [|? ? ? ? ? O2 CS2|]; subst; [exact (IH ks P2 CS2) | contradiction].
  - intros y x t ts a b O _ IHu _ IHc ks P CS. inversion P as [|? ? P1 P2]; subst. inversion CS as [|? ? ? ? ? O2 CS2|? ? ? ? at_ us tail rest O2 _ US _ CS2]; subst; [contradiction|].
    cbn [flat_map fst]. rewrite outer_elem, P1. apply Forall2_app; [exact (IHu us US) | exact (IHc rest P2 CS2)].
  - intros ks US. inversion US; subst. constructor.
  - intros u us a b _ IHu _ IHs ks US. inversion US as [|? ? e tail ks2 SW _ US2]; subst. cbn [flat_map fst]. apply Forall2_app; [exact (IHu e SW) | exact (IHs ks2 US2)].
Qed.

Lemma shown_table k e : shown k e -> is_table (e_tag e) = true.
Proof.
  intros SW. inversion SW as [x l ? (u & (f & s & s' & H) & SU) _]; subst. unfold parse_table in H. destruct (mem_id _ s); [discriminate|]. destruct (grid x) as [m| |]; cbn [dbind] in H; try discriminate.
  destruct (parse_rows _ m _) as [[rs s1]| |]; cbn [dbind] in H; try discriminate. injection H as <- _. inversion SU; reflexivity.
Qed.
Lemma inner_size e q : In q (inner_tables e) -> (esize q < esize e)%nat.
Proof.
  assert (G : forall e q, In q (outer_tables e) -> (esize q <= esize e)%nat).
  { clear. induction e as [e IH] using esize_ind. destruct e as [t a x ks]. intros q I. rewrite outer_elem in I. destruct (is_table t); [destruct I as [<-|[]]; lia|].
    apply in_flat_map in I as (k & K & I). pose proof (esize_kid t a x ks k K) as L. specialize (IH _ L q I). lia. }
  destruct e as [t a x ks]. unfold inner_tables. cbn [e_kids]. intros I. apply in_flat_map in I as (k & K & I). pose proof (esize_kid t a x ks k K) as L. specialize (G _ _ I). lia.
Qed.
Lemma shown_all : forall e k, shown k e -> Forall2 (renders d tr cr) (tree_tables k) (table_elems e).
Proof.
  intros e. induction e as [e IH] using esize_ind. intros k SW. rewrite (table_inner e (shown_table _ _ SW)). inversion SW as [x l ? R F]; subst. cbn [tree_tables]. constructor; [exact R|].
  assert (SZ := inner_size e). revert SZ F. generalize (inner_tables e) as qs. clear SW. intros qs SZ F. induction F as [|k q l qs SK F IHF]; cbn [flat_map]; [constructor|].
  apply Forall2_app; [apply IH; [apply SZ; left; reflexivity | exact SK]|]. apply IHF. intros p P. apply SZ. right. exact P.
Qed.
End Shown.

(** ** The property *)

(** The body of the document written holds, in document order, the tables that have no place in
    a cell of another table; each shows its table, and in it the tables with a place in its
    cells, and so on. *)
Theorem C44_places d us tr cr version fname title rev root :
  distinct d -> spans_ok d -> parse_docx d = DOk us -> document_shows tr cr version fname title rev us root ->
  exists f trees,
    (forall t, In t (w_all "w:tbl" (dx_body d)) -> f t = true <-> ~ in_place d t)
    /\ Forall2 table_tree (filter f (w_all "w:tbl" (dx_body d))) trees
    /\ Forall2 (tree_shown d tr cr) trees (figures root).
Proof.
  intros DI SP PD DS. destruct (C67_read_back _ _ _ _ _ _ _ _ _ PD DS) as (_ & _ & F).
  destruct (doc_trees d DI SP us PD) as (ks & F1 & F2 & _). exists (fun t => negb (placed d t)), ks. split.
  { intros t I. rewrite <- (placed_iff d DI t I). destruct (placed d t); cbn [negb]; split; congruence. }
  split; [exact F1|]. clear F1 PD DS. revert F2. induction F as [|u e us es SW F IH] in ks |- *; intros F2; inversion F2 as [|? k ? ks2 U F3]; subst; constructor.
  - pose proof (proj1 (trees_shown d tr cr) u [k] U e SW) as X. assert (T : is_table (e_tag e) = true) by (inversion U; subst; inversion SW; reflexivity).
    destruct e as [t a x q]. rewrite outer_elem in X. cbn [e_tag] in T. rewrite T in X. inversion X; assumption.
  - apply IH. exact F3.
Qed.
Print Assumptions C44_places.

(** Every table of the docx document is shown by exactly one table element, and every table
    element shows one. *)
Theorem C44_once d us tr cr version fname title rev root :
  distinct d -> spans_ok d -> parse_docx d = DOk us -> document_shows tr cr version fname title rev us root ->
  exists l, Permutation l (w_all "w:tbl" (dx_body d)) /\ Forall2 (renders d tr cr) l (table_elems root).
Proof.
  intros DI SP PD DS. destruct (C67_read_back _ _ _ _ _ _ _ _ _ PD DS) as (_ & _ & F).
  destruct (doc_trees d DI SP us PD) as (ks & F1 & F2 & P). exists (flat_map tree_tables ks). split; [exact P|].
  assert (E : table_elems root = flat_map table_elems (figures root)).
  { destruct DS as (xh & xb & x1 & t1 & t2 & t3 & t4 & t5 & t6 & ks' & -> & _ & US). unfold figures.
    cbn. rewrite !app_nil_r. pose proof (parse_docx_tables _ _ PD) as T. clear - US T. induction US as [|u us e tail ks S _ US IH]; [reflexivity|]. inversion T as [|? ? (w & i & rows & ->) T']; subst.
    inversion S; subst. cbn [filter fst e_tag flat_map map]. change (seqb (utf8 "table") t_table) with true. cbn [map fst flat_map]. rewrite <- (IH T'). reflexivity. }
  rewrite E. clear F1 PD DS E P. revert F2. induction F as [|u e us es SW F IH] in ks |- *; intros F2; inversion F2 as [|? k ? ks2 U F3]; subst; [constructor|]. cbn [flat_map].
  apply Forall2_app; [|apply IH; exact F3]. apply shown_all.
  pose proof (proj1 (trees_shown d tr cr) u [k] U e SW) as X. assert (T : is_table (e_tag e) = true) by (inversion U; subst; inversion SW; reflexivity).
  destruct e as [t a x q]. rewrite outer_elem in X. cbn [e_tag] in T. rewrite T in X. inversion X; assumption.
Qed.
Print Assumptions C44_once.

(** As many table elements as tables; and the progress total of the docx stage, the number of
    tables, is at least the number of tables written into the body, with equality exactly when
    no table has a place in a cell of another. *)
Corollary C44_count d us tr cr version fname title rev root :
  distinct d -> spans_ok d -> parse_docx d = DOk us -> document_shows tr cr version fname title rev us root ->
  List.length (table_elems root) = List.length (w_all "w:tbl" (dx_body d))
  /\ (List.length us <= List.length (w_all "w:tbl" (dx_body d)))%nat
  /\ (List.length us = List.length (w_all "w:tbl" (dx_body d)) <-> forall t, In t (w_all "w:tbl" (dx_body d)) -> ~ in_place d t).
Proof.
  intros DI SP PD DS. destruct (C44_once _ _ _ _ _ _ _ _ _ DI SP PD DS) as (l & P & F). split; [rewrite <- (Permutation_length P); symmetry; exact (Forall2_length _ _ _ F)|].
  destruct (doc_trees d DI SP us PD) as (ks & F1 & F2 & _). rewrite (Forall2_length _ _ _ F2), <- (Forall2_length _ _ _ F1).
  assert (G : forall l : list welem, (forall x, In x l -> In x (w_all "w:tbl" (dx_body d))) ->
    (List.length (filter (fun t => negb (placed d t)) l) <= List.length l)%nat
    /\ (List.length (filter (fun t => negb (placed d t)) l) = List.length l <-> forall t, In t l -> ~ in_place d t)).
  { clear - DI SP. induction l as [|x l IH]; intros S; [split; [cbn; lia|]; split; [intros _ t [] | reflexivity]|].
    destruct IH as [L E]; [intros y Y; apply S; right; exact Y|]. pose proof (placed_iff d DI x (S x (or_introl eq_refl))) as Q. cbn [filter List.length]. destruct (placed d x); cbn [negb List.length].
    - split; [lia|]. split; [lia|]. intros N. exfalso. apply (N x (or_introl eq_refl)), Q. reflexivity.
    - split; [lia|]. split.
      + intros H t [<-|I]; [intros C; apply Q in C; discriminate|]. apply E; [lia | exact I].
      + intros N. f_equal. apply E. intros t I. apply N. right. exact I. }
  apply G. auto.
Qed.
Print Assumptions C44_count.

(** A table (1) with a table (5) in its first cell, and one (13) in a cell that continues the
    cell above: the first is shown in its place, the second after the table. *)
Definition tn (n : N) (t : string) (ks : list welem) : welem := W n (utf8 t) [] None ks.
Definition nx_small (n : N) : welem := tn n "w:tbl" [tn (n + 1) "w:tr" [tn (n + 2) "w:tc" []]].
Definition nx_merge (n : N) (v : string) : welem :=
  tn n "w:tcPr" [W (n + 1) (utf8 "w:vMerge") (match v with EmptyString => [] | _ => [(utf8 "w:val", utf8 v)] end) None []].
(** Which cells have a place of their own, in terms of the vocabulary of the layout (C41). *)
Theorem C44_own_place tc : own_place tc = true <-> ~ continues_above tc /\ exists n, spans_columns tc n /\ (1 <= n)%Z.
Proof.
  unfold own_place. rewrite andb_true_iff. pose proof (proj1 (vmerge_iff tc)) as V. split.
  - intros [A B]. split; [intros X; apply V in X; rewrite X in A; discriminate|]. destruct (tc_grid_span tc) as [n| |] eqn:G; try discriminate.
    exists n. split; [apply spans_columns_iff; exact G | apply Z.leb_le; exact B].
  - intros [A (n & G & B)]. apply spans_columns_iff in G. rewrite G. split; [|apply Z.leb_le; exact B].
    destruct (cell_vertical_merge tc) as [[]| |] eqn:E; try reflexivity. exfalso. apply A, V. reflexivity.
Qed.
Print Assumptions C44_own_place.
Definition nx_doc : docx := mkDocx (tn 100 "w:document" [tn 101 "w:body"
  [tn 1 "w:tbl" [tn 2 "w:tr" [tn 3 "w:tc" [nx_merge 20 "restart"; nx_small 5]];
                 tn 10 "w:tr" [tn 11 "w:tc" [nx_merge 30 ""; nx_small 13]]]]]) None (tn 200 "w:styles" []).
Lemma nx_distinct : distinct nx_doc.
Proof. unfold distinct. assert (E : map w_id (dx_body nx_doc :: below (dx_body nx_doc)) = [100; 101; 1; 2; 3; 20; 21; 5; 6; 7; 10; 11; 30; 31; 13; 14; 15]) by reflexivity.
  rewrite E. repeat (constructor; [cbn [In]; intros I; repeat (destruct I as [I|I]; [discriminate|]); destruct I|]). constructor. Qed.
Lemma nx_spans : spans_ok nx_doc.
Proof.
  intros x tc n I J G. apply spans_columns_iff in G. assert (F : Forall (fun x => Forall (fun tc => tc_grid_span tc = DOk 1%Z) (table_cells x)) (w_all "w:tbl" (dx_body nx_doc))).
  { assert (E : w_all "w:tbl" (dx_body nx_doc) = [tn 1 "w:tbl" [tn 2 "w:tr" [tn 3 "w:tc" [nx_merge 20 "restart"; nx_small 5]]; tn 10 "w:tr" [tn 11 "w:tc" [nx_merge 30 ""; nx_small 13]]]; nx_small 5; nx_small 13]) by reflexivity.
    rewrite E. repeat (constructor; [repeat (constructor; [reflexivity|]); constructor|]). constructor. }
  rewrite Forall_forall in F. specialize (F x I). rewrite Forall_forall in F. rewrite (F tc J) in G. injection G as <-. lia.
Qed.
Example C44_ex : exists us rest root c,
  parse_docx nx_doc = DOk us /\ html_doc (utf8 "1") (utf8 "s") (utf8 "t") (Some (utf8 "r")) us = (TDoctype :: TNl :: rest, c) /\ content rest [] [(root, [10])]
  /\ List.length (table_elems root) = 3%nat /\ List.length (figures root) = 2%nat
  /\ map (fun t => (w_id t, map w_id (nested_tables t))) (w_all "w:tbl" (dx_body nx_doc)) = [(1, [5]); (5, []); (13, [])].
Proof.
  assert (exists us, parse_docx nx_doc = DOk us /\ List.length us = 2%nat) as (us & P & L) by (eexists; split; vm_compute; reflexivity).
  destruct (html_doc (utf8 "1") (utf8 "s") (utf8 "t") (Some (utf8 "r")) us) as [ts c] eqn:H.
  destruct (C66_document _ _ _ _ _ _ _ _ P H) as (rest & root & -> & C & _ & DS); [lit | lit | lit | lit|].
  exists us, rest, root, c. split; [exact P|]. split; [exact H|]. split; [exact C|].
  destruct (C44_count _ _ _ _ _ _ _ _ _ nx_distinct nx_spans P DS) as (N & _). split; [rewrite N; reflexivity|]. split; [|reflexivity].
  destruct (C67_read_back _ _ _ _ _ _ _ _ _ P DS) as (_ & _ & F). rewrite <- (Forall2_length _ _ _ F). exact L.
Qed.

(** With a negative span a table can get lost: the cell after it is not where the grid says it
    begins, so neither it nor the table in it is rendered. *)
Definition ng_span (n : N) (v : string) : welem := tn n "w:tcPr" [W (n + 1) (utf8 "w:gridSpan") [(utf8 "w:val", utf8 v)] None []].
Definition ng_doc : docx := mkDocx (tn 100 "w:document" [tn 1 "w:tbl" [tn 2 "w:tr"
  [tn 3 "w:tc" [ng_span 20 "2"]; tn 4 "w:tc" [ng_span 30 "-1"]; tn 5 "w:tc" [nx_small 6]]]]) None (tn 200 "w:styles" []).
Theorem C44_negative_refuted : exists d us rest root c,
  distinct d /\ parse_docx d = DOk us /\ html_doc (utf8 "1") (utf8 "s") (utf8 "t") (Some (utf8 "r")) us = (TDoctype :: TNl :: rest, c) /\ content rest [] [(root, [10])]
  /\ List.length (w_all "w:tbl" (dx_body d)) = 2%nat /\ List.length (table_elems root) = 1%nat.
Proof.
  exists ng_doc.
  assert (exists us, parse_docx ng_doc = DOk us) as (us & P) by (eexists; vm_compute; reflexivity).
  destruct (html_doc (utf8 "1") (utf8 "s") (utf8 "t") (Some (utf8 "r")) us) as [ts c] eqn:H.
  destruct (C66_document _ _ _ _ _ _ _ _ P H) as (rest & root & -> & C & U & DS); [lit | lit | lit | lit|].
  exists us, rest, root, c. split.
  { unfold distinct. assert (E : map w_id (dx_body ng_doc :: below (dx_body ng_doc)) = [100; 1; 2; 3; 20; 21; 4; 30; 31; 5; 6; 7; 8]) by reflexivity.
    rewrite E. repeat (constructor; [cbn [In]; intros I; repeat (destruct I as [I|I]; [discriminate|]); destruct I|]). constructor. }
  split; [exact P|]. split; [exact H|]. split; [exact C|]. split; [reflexivity|].
  destruct (C67_read_back _ _ _ _ _ _ _ _ _ P DS) as (_ & _ & F).
  assert (R : exists a b e1 e2 e3, us = [HTable a b [[TC (utf8 "td") [] e1 (0, 0)%Z None; TC (utf8 "td") [] e1 (0, 0)%Z None; TC (utf8 "td") e2 e3 (1, 0)%Z None]]]).
  { assert (E : exists us, parse_docx ng_doc = DOk us /\ exists a b e1 e2 e3, us = [HTable a b [[TC (utf8 "td") [] e1 (0, 0)%Z None; TC (utf8 "td") [] e1 (0, 0)%Z None; TC (utf8 "td") e2 e3 (1, 0)%Z None]]])
      by (eexists; split; [vm_compute; reflexivity | repeat eexists]).
    destruct E as (us' & E & R). rewrite P in E. injection E as <-. exact R. }
  destruct R as (a & b & e1 & e2 & e3 & ->). destruct DS as (xh & xb & x1 & t1 & t2 & t3 & t4 & t5 & t6 & ks & -> & _ & US).
  inversion US as [|? ? e tail ks2 SW _ US2]; subst. inversion US2; subst. inversion SW as [| |? ? ? y q B RS]; subst.
  inversion RS as [|? ? ? x cs tl rs B1 B2 CS RS2]; subst. inversion RS2; subst.
  assert (K : outs cs = []).
  { clear - CS. inversion CS as [|? ? ? ? ? O _|? ? ? ? at_ us tail rest _ _ UU _ C1]; subst; [exfalso; apply O; reflexivity|]. inversion UU; subst.
    inversion C1 as [|? ? ? ? ? _ C2|? ? ? ? ? ? ? ? O _ _ _ _]; subst; [|discriminate O]. inversion C2 as [|? ? ? ? ? _ C3|? ? ? ? ? ? ? ? O _ _ _ _]; subst; [|discriminate O]. inversion C3; subst. reflexivity. }
  assert (K2 : flat_map (fun k : kid => table_elems (fst k)) cs = []).
  { rewrite (flat_ext_in _ (fun k : kid => flat_map table_elems (outer_tables (fst k))) cs); [|intros k _; apply table_outer]. rewrite <- flat_flat, K. reflexivity. }
  cbn. match goal with |- context [flat_map ?f cs] => replace (flat_map f cs) with (@nil elem) by (symmetry; exact K2) end. reflexivity.
Qed.
Print Assumptions C44_negative_refuted.
