(** The docx stage terminates: its functions never run out of fuel. *)
From Coq Require Import NArith ZArith List Bool String Lia.
From Verif Require Import PyStr PyStrFacts Docx SpecFmt Prop_Fmt SpecList ListProofs.
Import ListNotations.
Local Open Scope string_scope.
Local Open Scope list_scope.

Ltac nf := repeat (cbn [dbind]; match goal with |- context [match ?x with _ => _ end] => destruct x end; try discriminate; try congruence).

Lemma bind_nf {A B} (r : dres A) (f : A -> dres B) : r <> DFuel -> (forall a, r = DOk a -> f a <> DFuel) -> dbind r f <> DFuel.
Proof. destruct r; cbn [dbind]; intros H H0; [apply H0; reflexivity | discriminate | congruence]. Qed.
Lemma d_int_nf s : d_int s <> DFuel. Proof. unfold d_int. nf. Qed.
Lemma attr_req_nf ts a e : attr_first_req ts a e <> DFuel. Proof. unfold attr_first_req. nf. Qed.
Lemma from_rpr_nf e : from_rpr e <> DFuel.
Proof. unfold from_rpr, u_val, valign_of, attr_first_req. nf. Qed.
Lemma dmap_nf {A B} (f : A -> dres B) l : (forall a, f a <> DFuel) -> dmap f l <> DFuel.
Proof. intros H. induction l as [|a l IH]; cbn [dmap]; [discriminate|]. apply bind_nf; [apply H|]. intros b _. apply bind_nf; [exact IH | discriminate]. Qed.
Lemma alias_nf ss : forall d, alias_loop ss d <> DFuel.
Proof.
  induction ss as [|x ss IH]; intros d; cbn [alias_loop]; [discriminate|].
  repeat first [apply IH | apply bind_nf; [first [apply attr_req_nf | nf]|intros ? _] | match goal with |- context [match ?x with _ => _ end] => destruct x end | discriminate].
Qed.
Lemma get_style_nf ty doc id : get_style ty doc id <> DFuel.
Proof.
  unfold get_style. apply bind_nf; [apply alias_nf|]. intros al _. destruct (d_get id al); [apply style_chain_nofuel | discriminate].
Qed.
Lemma rpr_nf st r : extract_r_rpr st r <> DFuel.
Proof.
  unfold extract_r_rpr. destruct (elem_first _ r); [|discriminate]. apply bind_nf; [apply from_rpr_nf|]. intros p _.
  destruct (attr_first _ _ _); [|discriminate]. apply bind_nf; [apply get_style_nf | discriminate].
Qed.

Section Doc.
Variable d : docx.
Lemma select_nf ks : select_runs ks <> DFuel.
Proof.
  induction ks as [|k ks IH]; cbn [select_runs]; [discriminate|].
  destruct (is_tag "w:r" k); [apply bind_nf; [exact IH | discriminate]|]. destruct (_ || _); [|exact IH].
  apply bind_nf; [unfold elem_first_req; nf|]. intros x _. apply bind_nf; [exact IH | discriminate].
Qed.
Lemma spans_nf p : parse_spans d p <> DFuel.
Proof.
  unfold parse_spans. apply bind_nf; [apply select_nf|]. intros rs _. apply bind_nf; [|discriminate]. apply dmap_nf. intros r. unfold run_spans.
  destruct (elem_first _ r) as [t|]; [|discriminate]. destruct (w_text t); [|discriminate]. apply bind_nf; [apply rpr_nf | discriminate].
Qed.
Lemma is_list_nf p : is_list_p d p <> DFuel.
Proof. unfold is_list_p. destruct (p_num p); [|discriminate]. destruct (dx_num d); [|discriminate]. apply bind_nf; [apply d_int_nf | discriminate]. Qed.
Lemma num_nf p : p_num_id p <> DFuel.
Proof. unfold p_num_id. apply bind_nf; [apply attr_req_nf|]. intros. apply d_int_nf. Qed.
Lemma ilvl_nf p : p_ilvl p <> DFuel.
Proof. unfold p_ilvl. apply bind_nf; [apply attr_req_nf|]. intros. apply d_int_nf. Qed.
Lemma style_nf z : p_style d z <> DFuel.
Proof. unfold p_style, num_style. nf. Qed.
Lemma head_nf p : list_head d p <> DFuel.
Proof.
  unfold list_head. destruct (negb _); [discriminate|]. apply bind_nf; [apply num_nf|]. intros n _. apply bind_nf; [apply style_nf|]. intros [a ls] _.
  apply bind_nf; [apply ilvl_nf|]. intros i _. apply bind_nf; [|discriminate]. unfold get_ilvl, py_index. nf.
Qed.

Lemma list_elems_nf : forall fuel st a i,
  (List.length st + List.length st + (match st with p :: _ => match p_ilvl p with DOk j => if (i <? j)%Z then 1 else 0 | _ => 0 end | [] => 0 end) < fuel)%nat ->
  list_elems d fuel st a i <> DFuel.
Proof.
  induction fuel as [|f IH]; intros st a i L; [lia|]. cbn [list_elems]. destruct st as [|p rest]; [discriminate|].
  destruct (is_tag "w:p" p) eqn:TG; cbn [negb]; [|discriminate].
  apply bind_nf; [apply is_list_nf|]. intros lp LP. destruct lp; cbn [negb]; [|discriminate].
  apply bind_nf; [apply num_nf|]. intros n N. apply bind_nf; [apply style_nf|]. intros [b ls] ST. destruct (Z.eqb_spec b a) as [->|]; cbn [negb]; [|discriminate].
  apply bind_nf; [apply ilvl_nf|]. intros j LV. rewrite LV in L. cbn [List.length] in L.
  assert (LPAR : list_par d p a j) by (apply list_par_iff; split; [apply seqb_eq; exact TG|]; split; [exact LP|]; split; [exists n, ls; auto | exact LV]).
  destruct (Z.ltb_spec i j) as [DEEP|].
  - apply bind_nf; [apply head_nf|]. intros [[l a'] j'] HD. destruct (list_head_props _ _ _ _ _ HD) as (_ & LV' & (n' & ls' & N' & ST')).
    assert (j' = j) as -> by congruence. assert (a' = a) as -> by (rewrite N in N'; injection N' as <-; rewrite ST in ST'; congruence).
    apply bind_nf; [apply IH; cbn [List.length]; rewrite LV, Z.ltb_irrefl; lia|]. intros [sub st1] E.
    destruct f as [|f]; [discriminate E|]. pose proof (list_par_get d a p rest f j sub st1 E LPAR) as LE.
    apply bind_nf; [|intros [more st2] _; discriminate]. apply IH. destruct st1 as [|q st1]; cbn [List.length] in *; [lia|].
    destruct (p_ilvl q) as [k| |]; [destruct (i <? k)%Z|..]; lia.
  - destruct (Z.ltb_spec j i); [discriminate|]. apply bind_nf; [apply spans_nf|]. intros sps _.
    apply bind_nf; [|intros [more st1] _; discriminate]. apply IH. destruct rest as [|q rest]; cbn [List.length] in *; [lia|].
    destruct (p_ilvl q) as [k| |]; [destruct (i <? k)%Z|..]; lia.
Qed.
Theorem parse_list_nf st : parse_list d st <> DFuel.
Proof.
  unfold parse_list. destruct st as [|p st]; [discriminate|]. apply bind_nf; [apply head_nf|]. intros [[l a] i] _.
  apply bind_nf; [|intros [its st'] _; discriminate]. apply list_elems_nf. unfold list_fuel.
  cbn [List.length]. destruct (p_ilvl p) as [k| |]; [destruct (i <? k)%Z|..]; lia.
Qed.
Lemma parse_list_shorter p rest u st' : parse_list d (p :: rest) = DOk (u, st') -> w_tag p = utf8 "w:p" -> is_list_p d p = DOk true ->
  exists ps, p :: rest = (p :: ps) ++ st'.
Proof.
  unfold parse_list. intros H TG LP. destruct (list_head d p) as [[[l a] i]| |] eqn:HD; cbn [dbind] in H; try discriminate.
  destruct (list_elems d _ (p :: rest) a i) as [[its st1]| |] eqn:E; cbn [dbind] in H; try discriminate. injection H as <- <-.
  destruct (list_head_props _ _ _ _ _ HD) as (_ & LV & (n & ls & N & ST)).
  destruct (list_elems_ok _ _ _ _ _ _ _ E) as (ps & EQ & _ & _ & _ & C & _).
  assert (LPAR : list_par d p a i) by (apply list_par_iff; split; [exact TG|]; split; [exact LP|]; split; [exists n, ls; auto | exact LV]).
  specialize (C p rest eq_refl LPAR). destruct ps as [|q ps]; [congruence|]. cbn [app] in EQ. injection EQ as <- EQ. exists ps. cbn [app]. congruence.
Qed.

(** ** Tables *)

Lemma update_in {A} n (f : A -> A) l x : In x (update n f l) -> exists y, In y l /\ (x = y \/ x = f y).
Proof.
  revert n. induction l as [|a l IH]; intros n H; [destruct n; destruct H|]. destruct n as [|n]; cbn [update] in H; destruct H as [<-|H].
  - exists a. split; [left; reflexivity | right; reflexivity].
  - exists x. split; [right; exact H | left; reflexivity].
  - exists a. split; [left; reflexivity | left; reflexivity].
  - destruct (IH n H) as (y & I & E). exists y. split; [right; exact I | exact E].
Qed.
Definition from (tcs : list welem) (h : heap) : Prop := forall g, In g h -> In (g_cell g) tcs.
Lemma grid_row_from all row above tcs : incl tcs all -> forall col h acc h' acc', grid_row row above tcs col h acc = DOk (h', acc') -> from all h -> from all h'.
Proof.
  induction tcs as [|tc tcs IH]; intros I col h acc h' acc' H F; cbn [grid_row] in H; [injection H as <- <-; exact F|].
  destruct (tc_grid_span tc) as [sp| |]; cbn [dbind] in H; try discriminate. destruct (cell_vertical_merge tc) as [vm| |]; cbn [dbind] in H; try discriminate.
  assert (NEW : from all (h ++ [mkG tc row row col (col + sp - 1)%Z])).
  { intros g G. apply in_app_iff in G as [G|[<-|[]]]; [exact (F g G)|]. apply I. left. reflexivity. }
  assert (I' : incl tcs all) by (intros x X; apply I; right; exact X).
  destruct vm; cbn [dbind] in H; [exact (IH I' _ _ _ _ _ H NEW) | | exact (IH I' _ _ _ _ _ H NEW)].
  destruct above as [a|]; cbn [dbind] in H; try discriminate. destruct (py_index a col) as [i| |]; cbn [dbind] in H; try discriminate.
  destruct (nth_error h i) as [g|]; cbn [dbind] in H; try discriminate. destruct (sp =? g_colspan g)%Z; cbn [dbind] in H; try discriminate.
  refine (IH I' _ _ _ _ _ H _). intros x X. apply update_in in X as (y & Y & [->| ->]); exact (F y Y).
Qed.
Definition cells_of (tbl : welem) : list welem := flat_map (w_children "w:tc") (w_children "w:tr" tbl).
Lemma grid_rows_from all : forall trs row h m h' m', (forall tr, In tr trs -> incl (w_children "w:tc" tr) all) ->
  grid_rows row trs h m = DOk (h', m') -> from all h -> from all h'.
Proof.
  induction trs as [|tr trs IH]; intros row h m h' m' I H F; cbn [grid_rows] in H; [injection H as <- <-; exact F|].
  destruct (grid_row row _ (w_children "w:tc" tr) 0 h []) as [[h1 cells]| |] eqn:E; cbn [dbind] in H; try discriminate.
  apply (IH _ _ _ _ _ (fun t T => I t (or_intror T)) H). exact (grid_row_from all _ _ _ (I tr (or_introl eq_refl)) _ _ _ _ _ E F).
Qed.
Lemma grid_cells tbl m row i g : grid tbl = DOk m -> In row m -> In (i, g) row -> In (g_cell g) (cells_of tbl).
Proof.
  unfold grid. destruct (grid_rows 0 (w_children "w:tr" tbl) [] []) as [[h mm]| |] eqn:E; cbn [dbind]; try discriminate. intros H R G.
  assert (F : from (cells_of tbl) h).
  { refine (grid_rows_from (cells_of tbl) _ _ _ _ _ _ _ E _); [|intros x []]. intros tr T x X. unfold cells_of. apply in_flat_map. exists tr. auto. }
  injection H as <-. apply in_map_iff in R as (r0 & <- & R). apply in_flat_map in G as (j & J & G).
  destruct (nth_error h j) as [g'|] eqn:N; [|destruct G]. destruct G as [[= <- <-]|[]]. apply F. eapply nth_error_In. exact N.
Qed.

Lemma wsize_kids e : wsize e = any_fuel (w_kids e).
Proof. destruct e. reflexivity. Qed.
Lemma in_size k l : In k l -> (wsize k <= list_sum (map wsize l))%nat.
Proof. induction l as [|a l IH]; intros []; cbn [map list_sum fold_right]; [subst; lia|]. specialize (IH H). unfold list_sum in IH. lia. Qed.
Lemma kid_size k e : In k (w_kids e) -> (wsize k < wsize e)%nat.
Proof. intros I. rewrite (wsize_kids e). unfold any_fuel. pose proof (in_size _ _ I). lia. Qed.
Lemma children_kids t e x : In x (w_children t e) -> In x (w_kids e).
Proof. unfold w_children. intros I. apply filter_In in I. tauto. Qed.
Lemma cells_size tbl tc : In tc (cells_of tbl) -> (wsize tc < wsize tbl)%nat.
Proof.
  unfold cells_of. intros I. apply in_flat_map in I as (tr & T & C). apply children_kids, kid_size in T. apply children_kids, kid_size in C. lia.
Qed.

Section Table.
Variable pa : list welem -> seen -> dres (list hunit * seen).
Lemma parse_row_nf row : (forall i g, In (i, g) row -> forall s, pa (w_kids (g_cell g)) s <> DFuel) -> forall s, parse_row pa row s <> DFuel.
Proof.
  induction row as [|[i g] row IH]; intros H s; cbn [parse_row]; [discriminate|].
  apply bind_nf; [apply (H i g); left; reflexivity|]. intros [us s1] _. apply bind_nf; [|intros [cells s2] _; discriminate].
  apply IH. intros j g' I. apply (H j g'). right. exact I.
Qed.
Lemma parse_rows_nf rows : (forall row i g, In row rows -> In (i, g) row -> forall s, pa (w_kids (g_cell g)) s <> DFuel) -> forall s, parse_rows pa rows s <> DFuel.
Proof.
  induction rows as [|row rows IH]; intros H s; cbn [parse_rows]; [discriminate|].
  apply bind_nf; [apply parse_row_nf; intros i g; apply (H row i g); left; reflexivity|]. intros [cells s1] _. apply bind_nf; [|intros [rest s2] _; discriminate].
  apply IH. intros r i g I. apply (H r i g). right. exact I.
Qed.
Lemma grid_row_nf row above tcs : forall col h acc, grid_row row above tcs col h acc <> DFuel.
Proof.
  induction tcs as [|tc tcs IH]; intros col h acc; cbn [grid_row]; [discriminate|].
  apply bind_nf; [unfold tc_grid_span; destruct (attr_first _ _ _); [apply d_int_nf | discriminate]|]. intros sp _.
  apply bind_nf; [unfold cell_vertical_merge; nf|]. intros vm _. apply bind_nf; [|intros [h' i] _; apply IH].
  destruct vm; try discriminate. destruct above as [a|]; [|discriminate]. apply bind_nf; [unfold py_index; nf|]. intros i _. nf.
Qed.
Lemma grid_nf tbl : grid tbl <> DFuel.
Proof.
  unfold grid. apply bind_nf; [|intros [h m] _; discriminate]. generalize 0%Z, (@nil gcell), (@nil (list nat)).
  induction (w_children "w:tr" tbl) as [|tr trs IH]; intros row h m; cbn [grid_rows]; [discriminate|].
  apply bind_nf; [apply grid_row_nf|]. intros [h' cells] _. apply IH.
Qed.
Lemma parse_table_nf tbl s : (forall tc, In tc (cells_of tbl) -> forall s, pa (w_kids tc) s <> DFuel) -> parse_table pa tbl s <> DFuel.
Proof.
  intros H. unfold parse_table. destruct (mem_id _ _); [discriminate|]. apply bind_nf; [apply grid_nf|]. intros m G.
  apply bind_nf; [|intros [rows s'] _; discriminate]. apply parse_rows_nf. intros row i g R I. apply H. exact (grid_cells _ _ _ _ _ G R I).
Qed.
End Table.

Lemma any_fuel_cons k l : any_fuel (k :: l) = (wsize k + any_fuel l)%nat.
Proof. unfold any_fuel. cbn [map list_sum fold_right]. unfold list_sum. lia. Qed.
Lemma any_fuel_app a b : any_fuel (a ++ b) = (list_sum (map wsize a) + any_fuel b)%nat.
Proof. unfold any_fuel. rewrite map_app, list_sum_app. lia. Qed.
Lemma wsize_pos e : (1 <= wsize e)%nat.
Proof. destruct e. cbn [wsize]. lia. Qed.

Theorem parse_any_nf : forall fuel st s, (any_fuel st <= fuel)%nat -> parse_any d fuel st s <> DFuel.
Proof.
  induction fuel as [|f IH]; intros st s L; [unfold any_fuel in L; lia|]. cbn [parse_any]. destruct st as [|cur rest]; [discriminate|].
  rewrite any_fuel_cons in L. pose proof (wsize_pos cur) as P.
  destruct (is_tag "w:tbl" cur).
  - apply bind_nf; [|intros [t s1] _; apply bind_nf; [apply IH; lia | intros [us s2] _; discriminate]].
    apply parse_table_nf. intros tc I s1. apply IH. rewrite <- wsize_kids. apply cells_size in I. unfold any_fuel in L. lia.
  - destruct (is_tag "w:p" cur) eqn:TG; [|apply IH; lia]. apply bind_nf; [apply is_list_nf|]. intros lp LP. destruct lp.
    + apply bind_nf; [apply parse_list_nf|]. intros [u st'] PL. apply bind_nf; [|intros [us s1] _; discriminate]. apply IH.
      destruct (parse_list_shorter _ _ _ _ PL (proj1 (seqb_eq _ _) TG) LP) as (ps & E). cbn [app] in E. injection E as ->. rewrite any_fuel_app in L. lia.
    + unfold parse_paragraph. apply bind_nf; [apply bind_nf; [apply spans_nf | discriminate]|]. intros u _. apply bind_nf; [apply IH; lia | intros [us s1] _; discriminate].
Qed.
Theorem parse_docx_nf : parse_docx d <> DFuel.
Proof.
  unfold parse_docx. apply bind_nf; [|intros [us s] _; discriminate]. generalize (@nil N).
  induction (w_all "w:tbl" (dx_body d)) as [|t l IH]; intros s; cbn [parse_tables]; [discriminate|].
  apply bind_nf; [|intros [u s1] _; apply bind_nf; [apply IH | intros [us s2] _; discriminate]].
  apply parse_table_nf. intros tc I s1. apply parse_any_nf. rewrite <- !wsize_kids. apply cells_size in I. lia.
Qed.
End Doc.
