(** Properties of the tables of the HTML document: C42 (every cell once, with its spans), C43
    (iterating the rows gives the cells back). *)
From Coq Require Import NArith ZArith List Bool String Lia.
From Verif Require Import PyStr PyStrFacts Xml Docx Render SpecFmt SpecGrid SpecHtml GridProofs HtmlProofs TableHtml TilingProofs Prop_Grid Prop_Html DocxFlow SpecRows RowIter RestoreProofs.
Import ListNotations.
Local Open Scope string_scope.
Local Open Scope list_scope.

(** ** C42: tables *)

(** At any moment while a document is rendered, a table of it with aligned cells: what is
    written reads as one table element, with one tr element for each row, which has one element
    for each cell that begins in the row, from left to right, with its spans and contents. *)
Theorem C42_cells d fuel tbl rows s u s' c ts c' : layout tbl rows -> aligned rows ->
  parse_table (parse_any d fuel) tbl s = DOk (Some u, s') -> reached c -> render_unit u c = (ts, c') ->
  exists e, content ts [] [(e, [10%N])]
    /\ (forall x ks, content ts x ks -> x = [] /\ ks = [(e, [10%N])])
    /\ e_tag e = utf8 "table" /\ List.length (e_kids e) = List.length rows
    /\ forall r row, nth_error rows r = Some row ->
         exists x ks tail, nth_error (e_kids e) r = Some (Elem (utf8 "tr") [] x ks, tail) /\ breaks x /\ breaks tail
           /\ Forall2 (cell_shown (emit_rules css_attrs (c_txt c')) (emit_rules fill_css (c_cell c')) (parse_any d fuel) rows r) (own_cells row) ks.
Proof.
  intros LY AL PT RC RU. pose proof (parse_table_safe _ (parse_any_safe d fuel) _ _ _ _ PT) as S.
  pose proof (units_all [u] (Forall_cons u S (Forall_nil _))) as U. inversion U as [|? ? U1 _]; subst.
  destruct (U1 _ _ _ RU (reached_good _ RC)) as (_ & _ & e & SW & CO). specialize (CO [] [] [] ct_nil). rewrite app_nil_r in CO.
  destruct (table_cells _ _ _ _ _ _ _ _ _ LY AL PT SW) as (T & L & N).
  exists e. split; [exact CO|]. split; [|split; [exact T|]; split; [exact L | exact N]].
  intros x ks CO'. destruct (content_det _ _ _ _ _ CO CO') as [<- <-]. auto.
Qed.
Print Assumptions C42_cells.

(** A cell is a header cell exactly if its fill colour is a grey other than white, written with
    six characters. *)
Theorem C42_tag tc : cell_tag tc = utf8 "th" \/ cell_tag tc = utf8 "td".
Proof. unfold cell_tag. destruct (cell_fill tc); [destruct (_ && _)|]; auto. Qed.
Theorem C42_header tc : cell_tag tc = utf8 "th" <->
  exists a b, attr_first ["w:tcPr"; "w:shd"] "w:fill" tc = Some [a; b; a; b; a; b]
    /\ lower [a; b; a; b; a; b] <> utf8 "ffffff".
Proof.
  unfold cell_tag, cell_fill. destruct (attr_first ["w:tcPr"; "w:shd"] "w:fill" tc) as [f|]; [|split; [discriminate|]; intros (? & ? & E & _); discriminate].
  destruct (Nat.eqb_spec (List.length f) 6) as [L|L]; cbn [andb].
  - do 6 (destruct f as [|? f]; [discriminate L|]). destruct f; [|discriminate L]. cbn [firstn skipn].
    destruct (seqb (lower _) (utf8 "ffffff")) eqn:W; cbn [negb].
    + split; [discriminate|]. intros (a & b & E & NW). injection E as -> -> -> -> -> ->. apply seqb_eq in W. congruence.
    + destruct (seqb [n; n0] [n1; n2]) eqn:E1; cbn [andb]; [destruct (seqb [n1; n2] [n3; n4]) eqn:E2|].
      * apply seqb_eq in E1, E2. injection E1 as <- <-. injection E2 as <- <-. split; [|reflexivity]. intros _. exists n, n0. split; [reflexivity|].
        intros X. rewrite X in W. discriminate W.
      * split; [discriminate|]. intros (a & b & E & _). injection E as -> -> -> -> -> ->. rewrite seqb_refl in E2. discriminate.
      * split; [discriminate|]. intros (a & b & E & _). injection E as -> -> -> -> -> ->. rewrite seqb_refl in E1. discriminate.
  - split; [discriminate|]. intros (a & b & E & _). injection E as ->. cbn in L. lia.
Qed.
Print Assumptions C42_tag.
Print Assumptions C42_header.

(** A table with merged cells. *)
Definition no_docx : docx := mkDocx (W 0 (utf8 "w:document") [] None []) None (W 0 (utf8 "w:styles") [] None []).
Lemma ok_aligned : aligned ok_rows.
Proof.
  intros r row x c R B C. apply placed_begins0 in B.
  destruct r as [|[|[|[|r]]]]; try discriminate R; cbn in R; injection R as <-; cbn in B.
  - destruct B as [[= <- <-]|[[= <- <-]|[]]]; discriminate C.
  - destruct B as [[= <- <-]|[[= <- <-]|[]]]; try discriminate C.
    exists 0, (nth 0 ok_rows []), (mkWc (w_tc 10 "2" (Some "restart")) 2 false). split; [reflexivity|]. split; [reflexivity|]. split; [apply placed_begins0; left; reflexivity | reflexivity].
  - destruct B as [[= <- <-]|[[= <- <-]|[[= <- <-]|[]]]]; try discriminate C.
    exists 1, (nth 1 ok_rows []), (mkWc (w_tc 40 "1" (Some "restart")) 1 false). split; [reflexivity|]. split; [reflexivity|]. split; [apply placed_begins0; right; left; reflexivity | reflexivity].
Qed.
Example C42_ex : layout ok_tbl ok_rows /\ aligned ok_rows /\ reached no_caches
  /\ match parse_table (parse_any no_docx 5) ok_tbl [] with
     | DOk (Some u, _) => html_text (fst (render_unit u no_caches))
         = utf8 "<table>" ++ [10%N] ++ utf8 "<tr>" ++ [10%N] ++ utf8 "<td colspan=""2"" rowspan=""2""></td>" ++ [10%N] ++ utf8 "<td></td>" ++ [10%N] ++ utf8 "</tr>"
           ++ [10%N] ++ utf8 "<tr>" ++ [10%N] ++ utf8 "<td rowspan=""2""></td>" ++ [10%N] ++ utf8 "</tr>" ++ [10%N]
           ++ utf8 "<tr>" ++ [10%N] ++ utf8 "<td></td>" ++ [10%N] ++ utf8 "<td></td>" ++ [10%N] ++ utf8 "</tr>" ++ [10%N] ++ utf8 "</table>" ++ [10%N]
     | _ => False
     end.
Proof. split; [exact (proj1 C41_ex)|]. split; [exact ok_aligned|]. split; [constructor|]. vm_compute. reflexivity. Qed.

(** ** C43: from docx to HTML and back to rows *)

(** The HTML of a table, read and iterated row by row: header rows as they stand in the HTML,
    for every other row the cells covering it, from left to right. *)
Theorem C43_lossless d fuel tbl rows s u s' c ts c' W : layout tbl rows -> aligned rows ->
  parse_table (parse_any d fuel) tbl s = DOk (Some u, s') -> reached c -> render_unit u c = (ts, c') ->
  (forall row, In row rows -> own_cells row <> []) ->
  (forall row, In row rows -> ~ header_row row -> list_sum (map wc_span row) = W) ->
  separate rows ->
  (N.of_nat (List.length rows) < 10 ^ 4300)%N -> (N.of_nat W < 10 ^ 4300)%N ->
  exists e out, content ts [] [(e, [10%N])]
    /\ (forall x ks, content ts x ks -> x = [] /\ ks = [(e, [10%N])])
    /\ rows_of e = (out, None) /\ List.length out = List.length rows
    /\ forall r row k o, nth_error rows r = Some row -> nth_error (e_kids e) r = Some k -> nth_error out r = Some o ->
         (header_row row -> o = fst k)
         /\ (~ header_row row -> e_tag o = t_tr /\ e_attrs o = []
              /\ Forall2 (cell_restored (emit_rules css_attrs (c_txt c')) (emit_rules fill_css (c_cell c')) (parse_any d fuel) rows e r)
                   (placed 0 row) (kids_of t_td o)).
Proof.
  intros LY AL PT RC RU NE WD SEP SR SC. pose proof (parse_table_safe _ (parse_any_safe d fuel) _ _ _ _ PT) as S.
  pose proof (units_all [u] (Forall_cons u S (Forall_nil _))) as U. inversion U as [|? ? U1 _]; subst.
  destruct (U1 _ _ _ RU (reached_good _ RC)) as (_ & _ & e & SW & CO). specialize (CO [] [] [] ct_nil). rewrite app_nil_r in CO.
  destruct (restored _ _ _ _ _ _ _ _ _ W LY AL PT SW NE WD SEP SR SC) as (out & RO & LO & N).
  exists e, out. split; [exact CO|]. split; [|split; [exact RO|]; split; [exact LO | exact N]].
  intros x ks CO'. destruct (content_det _ _ _ _ _ CO CO') as [<- <-]. auto.
Qed.
Print Assumptions C43_lossless.

(** A header row above the table of C42. *)
Definition grey_tc (i : N) : welem :=
  W i (utf8 "w:tc") [] None
    [W (i + 1) (utf8 "w:tcPr") [] None
       [W (i + 2) (utf8 "w:gridSpan") [(utf8 "w:val", utf8 "3")] None []; W (i + 3) (utf8 "w:shd") [(utf8 "w:fill", utf8 "D9D9D9")] None []]].
Definition hd_tbl : welem := w_tbl 0 (w_tr 100 [grey_tc 110] :: w_kids ok_tbl).
Definition hd_rows : list (list wcell) := [mkWc (grey_tc 110) 3 false] :: ok_rows.
Lemma ok_data row : In row ok_rows -> ~ header_row row.
Proof. intros I (p & O & T). destruct I as [<-|[<-|[<-|[]]]]; cbn in O; repeat (destruct O as [<-|O]; [discriminate T|]); destruct O. Qed.
Example C43_ex : layout hd_tbl hd_rows /\ aligned hd_rows
  /\ (exists u s' ts c', parse_table (parse_any no_docx 5) hd_tbl [] = DOk (Some u, s') /\ render_unit u no_caches = (ts, c'))
  /\ (forall row, In row hd_rows -> own_cells row <> [])
  /\ (forall row, In row hd_rows -> ~ header_row row -> list_sum (map wc_span row) = 3)
  /\ separate hd_rows /\ (exists row, nth_error hd_rows 0 = Some row /\ header_row row).
Proof.
  split.
  { constructor; [|exact (proj1 C41_ex)]. wlayout. }
  split.
  { intros [|r] row x c R B C; cbn in R.
    - injection R as <-. apply placed_begins0 in B. destruct B as [[= <- <-]|[]]. discriminate C.
    - destruct (ok_aligned r row x c R B C) as (r' & up & c0 & -> & U & B' & E). exists (S r'), up, c0. auto. }
  split; [do 4 eexists; split; vm_compute; reflexivity|].
  split; [intros row [<-|[<-|[<-|[<-|[]]]]]; discriminate|].
  split; [intros row [<-|[<-|[<-|[<-|[]]]]] _; reflexivity|].
  split.
  - intros r x (row & c & R & B & C). cbn in R. split.
    + intros row0 R0. destruct r as [|r]; [|apply ok_data; eapply nth_error_In; exact R0]. exfalso.
      cbn in R. injection R as <-. apply placed_begins0 in B. destruct B as [[= <- <-]|[[= <- <-]|[]]]; discriminate C.
    + intros row0 R0. apply ok_data. eapply nth_error_In. exact R0.
  - eexists. split; [reflexivity|]. eexists. split; [left; reflexivity|]. reflexivity.
Qed.

(** Without a cell of its own a row is lost: the HTML reader skips rows without cells. *)
Theorem C43_covered_row_refuted : exists d fuel tbl rows u s' ts c' e out,
  layout tbl rows /\ aligned rows /\ separate rows /\ (forall row, In row rows -> list_sum (map wc_span row) = 1)
  /\ parse_table (parse_any d fuel) tbl [] = DOk (Some u, s') /\ render_unit u no_caches = (ts, c')
  /\ content ts [] [(e, [10%N])] /\ rows_of e = (out, None) /\ List.length rows = 2 /\ List.length out = 1.
Proof.
  set (a := w_tc 10 "1" (Some "restart")). set (b := w_tc 20 "1" (Some "")).
  exists no_docx, 5, (w_tbl 0 [w_tr 1 [a]; w_tr 2 [b]]), [[mkWc a 1 false]; [mkWc b 1 true]]. do 4 eexists.
  exists (Elem (utf8 "table") [] [10%N] [(Elem (utf8 "tr") [] [10%N] [(Elem (utf8 "td") [(utf8 "rowspan", utf8 "2")] [] [], [10%N])], [10%N]); (Elem (utf8 "tr") [] [10%N] [], [10%N])]).
  eexists.
  split.
  { wlayout. }
  split.
  { intros [|[|[|r]]] row x c R B C; try discriminate R; cbn in R; injection R as <-; apply placed_begins0 in B; destruct B as [[= <- <-]|[]]; [discriminate C|].
    exists 0, [mkWc a 1 false], (mkWc a 1 false). split; [reflexivity|]. split; [reflexivity|]. split; [apply placed_begins0; left; reflexivity | reflexivity]. }
  split.
  { intros r x _. split; intros row R (p & O & T); apply nth_error_In in R; destruct R as [<-|[<-|[]]]; cbn in O; (destruct O as [<-|[]] || destruct O); discriminate T. }
  split; [intros row [<-|[<-|[]]]; reflexivity|].
  split; [vm_compute; reflexivity|]. split; [vm_compute; reflexivity|].
  split; [|split; [vm_compute; reflexivity|]; split; reflexivity].
  apply (ct_elem _ [] [] [TNl; TOpen (utf8 "tr") []; TNl; TOpen (utf8 "td") [(utf8 "rowspan", utf8 "2")]; TClose (utf8 "td"); TNl; TClose (utf8 "tr"); TNl; TOpen (utf8 "tr") []; TNl; TClose (utf8 "tr"); TNl] _ _ [TNl]);
    [apply attrs_read_nil | | apply ct_nl; constructor].
  apply ct_nl. apply (ct_elem _ [] [] [TNl; TOpen (utf8 "td") [(utf8 "rowspan", utf8 "2")]; TClose (utf8 "td"); TNl] _ _ [TNl; TOpen (utf8 "tr") []; TNl; TClose (utf8 "tr"); TNl]); [apply attrs_read_nil | |].
  - apply ct_nl. apply (ct_elem _ _ [(utf8 "rowspan", utf8 "2")] [] _ _ [TNl]); [|constructor | apply ct_nl; constructor].
    apply attrs_read_plain; [|repeat constructor; intros []]. constructor; [|constructor]. repeat constructor; discriminate.
  - apply ct_nl. apply (ct_elem _ [] [] [TNl] _ _ [TNl]); [apply attrs_read_nil | | ]; apply ct_nl; constructor.
Qed.
Print Assumptions C43_covered_row_refuted.
