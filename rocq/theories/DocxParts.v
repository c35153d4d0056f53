(** What holds of the runs, cells and lists of a docx document holds of everything made from
    them; and the formats in the style sheet are those of the spans and cells. *)
From Coq Require Import NArith ZArith List Bool String Lia.
From Coq Require Import ZifyBool ZifyN ZifyNat.
From Verif Require Import PyTables PyStr PyStrFacts Xml Docx Render SpecText SpecFmt SpecGrid SpecHtml SpecCss.
From Verif Require Import GridProofs HtmlProofs TableHtml DocxTotal TablesOnce XmlNeat.
Import ListNotations.
Local Open Scope string_scope.
Local Open Scope list_scope.
Local Open Scope N_scope.

Section Parts.
Variables (PS : span -> Prop) (PF : option str -> Prop) (PL : lvl -> list litem -> Prop).
Definition holds1 (u : hunit) : Prop :=
  match u with
  | HPar sps => forall sp, In sp sps -> PS sp
  | HList l its => (forall i sp, In i its -> item_span i sp -> PS sp) /\ PL l its
  | HTable _ _ rows => forall row t, In row rows -> In t row -> PF (tc_fill t)
  end.
Definition holds (u : hunit) : Prop := forall v, part u v -> holds1 v.

Section Docx.
Variable d : docx.
Variable ok : welem -> Prop.
Hypothesis ok_kid : forall e k, ok e -> In k (w_kids e) -> ok k.
Hypothesis ok_run : forall r l, ok r -> run_spans d r = DOk l -> forall sp, In sp l -> PS sp.
Hypothesis ok_cell : forall tc, ok tc -> PF (cell_fill tc).
Hypothesis ok_list : forall st l its st', parse_list d st = DOk (HList l its, st') -> PL l its.

Lemma runs_ok ks : forall rs, select_runs ks = DOk rs -> Forall ok ks -> Forall ok rs.
Proof.
  induction ks as [|k ks IH]; intros rs H F; cbn [select_runs] in H; [injection H as <-; constructor|]. inversion F; subst.
  destruct (is_tag "w:r" k).
  - destruct (select_runs ks) as [l| |]; cbn [dbind] in H; try discriminate. injection H as <-. constructor; [assumption | apply IH; auto].
  - destruct (is_tag "w:hyperlink" k || is_tag "w:fldSimple" k); [|apply IH; assumption].
    destruct (elem_first_req ["w:r"] k) as [x| |] eqn:E; cbn [dbind] in H; try discriminate. destruct (select_runs ks) as [l| |]; cbn [dbind] in H; try discriminate.
    injection H as <-. constructor; [|apply IH; auto]. unfold elem_first_req in E. destruct (elem_first ["w:r"] k) as [y|] eqn:EF; [|discriminate]. injection E as <-.
    apply (ok_kid k); [assumption | exact (elem_first_in _ _ _ EF)].
Qed.
Lemma spans_ok p sps : parse_spans d p = DOk sps -> ok p -> forall sp, In sp sps -> PS sp.
Proof.
  unfold parse_spans. intros H F. destruct (select_runs (w_kids p)) as [rs| |] eqn:S; cbn [dbind] in H; try discriminate.
  destruct (dmap (run_spans d) rs) as [ls| |] eqn:D; cbn [dbind] in H; try discriminate. injection H as <-.
  assert (FR : Forall ok rs) by (apply (runs_ok _ _ S); apply Forall_forall; intros k I; exact (ok_kid p k F I)). clear S F.
  revert ls D. induction FR as [|r rs R _ IH]; intros ls D; cbn [dmap] in D; [injection D as <-; intros sp []|].
  destruct (run_spans d r) as [l| |] eqn:E; cbn [dbind] in D; try discriminate. destruct (dmap (run_spans d) rs) as [ls'| |]; cbn [dbind] in D; try discriminate. injection D as <-.
  cbn [List.concat]. intros sp I. apply in_app_iff in I as [I|I]; [exact (ok_run r l R E sp I) | exact (IH _ eq_refl _ I)].
Qed.
Lemma elems_ok fuel : forall st abs i its st', list_elems d fuel st abs i = DOk (its, st') -> Forall ok st ->
  Forall ok st' /\ forall it s, In it its -> item_span it s -> PS s.
Proof.
  induction fuel as [|f IH]; intros st abs i its st' H F; cbn [list_elems] in H; [discriminate|].
  destruct st as [|p rest]; [injection H as <- <-; split; [constructor | intros it s []]|].
  destruct (negb (is_tag "w:p" p)); [injection H as <- <-; split; [exact F | intros it s []]|].
  destruct (is_list_p d p) as [lp| |]; cbn [dbind] in H; try discriminate. destruct (negb lp); [injection H as <- <-; split; [exact F | intros it s []]|].
  destruct (p_num_id p) as [n| |]; cbn [dbind] in H; try discriminate. destruct (p_style d n) as [[a ls]| |]; cbn [dbind] in H; try discriminate.
  destruct (negb (a =? abs)%Z); [injection H as <- <-; split; [exact F | intros it s []]|].
  destruct (p_ilvl p) as [j| |]; cbn [dbind] in H; try discriminate. destruct (i <? j)%Z.
  - destruct (list_head d p) as [[[l a'] i']| |]; cbn [dbind] in H; try discriminate.
    destruct (list_elems d f (p :: rest) a' i') as [[sub st1]| |] eqn:E1; cbn [dbind] in H; try discriminate.
    destruct (list_elems d f st1 abs i) as [[more st2]| |] eqn:E2; cbn [dbind] in H; try discriminate. injection H as <- <-.
    destruct (IH _ _ _ _ _ E1 F) as [F1 T1]. destruct (IH _ _ _ _ _ E2 F1) as [F2 T2]. split; [exact F2|].
    intros it s [<-|I] T; [inversion T; subst; eapply T1; eassumption | eapply T2; eassumption].
  - destruct (j <? i)%Z; [injection H as <- <-; split; [exact F | intros it s []]|].
    destruct (parse_spans d p) as [sps| |] eqn:P; cbn [dbind] in H; try discriminate.
    destruct (list_elems d f rest abs i) as [[more st2]| |] eqn:E2; cbn [dbind] in H; try discriminate. injection H as <- <-.
    inversion F as [|? ? FP FR]; subst. destruct (IH _ _ _ _ _ E2 FR) as [F2 T2]. split; [exact F2|].
    intros it s [<-|I] T; [inversion T; subst; eapply spans_ok; eassumption | eapply T2; eassumption].
Qed.
Lemma table_holds pa tbl s u s' :
  (forall st s us s', Forall ok st -> pa st s = DOk (us, s') -> Forall holds us) ->
  ok tbl -> parse_table pa tbl s = DOk (Some u, s') -> holds u.
Proof.
  intros PA F H. destruct (parse_table_cells pa tbl s u s' H) as (m & rows & G & -> & FF).
  assert (C : forall row t, In row rows -> In t row -> exists tc s1 s2, ok tc /\ tc_fill t = cell_fill tc /\ pa (w_kids tc) s1 = DOk (tc_elems t, s2)).
  { assert (GC : forall r i g, In r m -> In (i, g) r -> ok (g_cell g)).
    { intros r i g R I. pose proof (grid_cells _ _ _ _ _ G R I) as C. unfold cells_of in C. apply in_flat_map in C as (tr & T & C).
      apply children_kids in T, C. exact (ok_kid _ _ (ok_kid _ _ F T) C). }
    clear - FF GC. induction FF as [|r r' m rows F _ IH]; intros row t; [intros []|]. intros [<-|I] J.
    - specialize (GC r). assert (GC' : forall i g, In (i, g) r -> ok (g_cell g)) by (intros i g; apply GC; left; reflexivity). clear GC IH.
      induction F as [|[i g] c r r' (us & s1 & s2 & C & E) _ IH]; [destruct J|]. destruct J as [<-|J].
      + subst c. exists (g_cell g), s1, s2. cbn [snd tc_fill tc_elems] in *. split; [apply (GC' i); left; reflexivity|]. split; [reflexivity | exact C].
      + apply IH; [exact J|]. intros j h I. apply (GC' j). right. exact I.
    - apply (IH (fun r i g R => GC r i g (or_intror R)) row t I J). }
  intros v P. inversion P as [|? ? ? row t w ? IR IT IU P']; subst.
  - cbn [holds1]. intros row t IR IT. destruct (C row t IR IT) as (tc & _ & _ & K & -> & _). apply ok_cell. exact K.
  - destruct (C row t IR IT) as (tc & s1 & s2 & WF & _ & E).
    assert (FU : Forall holds (tc_elems t)) by (refine (PA _ _ _ _ _ E); apply Forall_forall; intros k K; exact (ok_kid _ _ WF K)).
    rewrite Forall_forall in FU. exact (FU _ IU v P').
Qed.
Lemma any_holds fuel : forall st s us s', Forall ok st -> parse_any d fuel st s = DOk (us, s') -> Forall holds us.
Proof.
  induction fuel as [|f IH]; intros st s us s' F H; cbn [parse_any] in H; [discriminate|].
  destruct st as [|cur rest]; [injection H as <- <-; constructor|]. inversion F as [|? ? FC FR]; subst.
  destruct (is_tag "w:tbl" cur).
  - destruct (parse_table (parse_any d f) cur s) as [[t s1]| |] eqn:T; cbn [dbind] in H; try discriminate.
    destruct (parse_any d f rest s1) as [[us' s2]| |] eqn:E; cbn [dbind] in H; try discriminate. injection H as <- <-.
    destruct t as [u|]; [constructor; [exact (table_holds _ _ _ _ _ IH FC T)|]|]; exact (IH _ _ _ _ FR E).
  - destruct (is_tag "w:p" cur); [|exact (IH _ _ _ _ FR H)].
    destruct (is_list_p d cur) as [[]| |]; cbn [dbind] in H; try discriminate.
    + destruct (parse_list d (cur :: rest)) as [[u st']| |] eqn:L; cbn [dbind] in H; try discriminate.
      destruct (parse_any d f st' s) as [[us' s2]| |] eqn:E; cbn [dbind] in H; try discriminate. injection H as <- <-.
      assert (L' := L). unfold parse_list in L'. destruct (list_head d cur) as [[[l a] i]| |]; cbn [dbind] in L'; try discriminate.
      destruct (list_elems d _ _ a i) as [[its st2]| |] eqn:LE; cbn [dbind] in L'; try discriminate. injection L' as <- <-.
      destruct (elems_ok _ _ _ _ _ _ LE F) as [F2 T2]. constructor; [|exact (IH _ _ _ _ F2 E)].
      intros v P. inversion P; subst. split; [exact T2 | exact (ok_list _ _ _ _ L)].
    + unfold parse_paragraph in H. destruct (parse_spans d cur) as [sps| |] eqn:P; cbn [dbind] in H; try discriminate.
      destruct (parse_any d f rest s) as [[us' s2]| |] eqn:E; cbn [dbind] in H; try discriminate. injection H as <- <-.
      destruct sps; [exact (IH _ _ _ _ FR E)|]. constructor; [|exact (IH _ _ _ _ FR E)].
      intros v Q. inversion Q; subst. exact (spans_ok _ _ P FC).
Qed.
Theorem docx_holds us : parse_docx d = DOk us -> (forall x, In x (nodes (dx_body d)) -> ok x) -> Forall holds us.
Proof.
  unfold parse_docx. destruct (parse_tables d _ []) as [[us' s]| |] eqn:E; cbn [dbind]; try discriminate. intros [= <-] F.
  assert (FT : Forall ok (w_all "w:tbl" (dx_body d))).
  { apply Forall_forall. intros x I. apply F. right. unfold w_all in I. apply filter_In in I. tauto. }
  revert E. generalize (@nil N) as s0. revert us' s. induction FT as [|t tbls FC _ IH]; intros us' s s0 H; cbn [parse_tables] in H; [injection H as <- <-; constructor|].
  destruct (parse_table _ t s0) as [[u s1]| |] eqn:T; cbn [dbind] in H; try discriminate.
  destruct (parse_tables d tbls s1) as [[us2 s2]| |] eqn:E; cbn [dbind] in H; try discriminate. injection H as <- <-.
  destruct u as [u|]; [constructor; [exact (table_holds _ _ _ _ _ (any_holds _) FC T)|]|]; exact (IH _ _ _ E).
Qed.
End Docx.

(** ** Rendering *)

(** What rendering does to the caches: asking for the classes of formats with [PS] and [PF]. *)
Variable PT : rprops -> Prop.
Inductive asked : caches -> caches -> Prop :=
| as_none c : asked c c
| as_txt p c n c1 c2 : PT p -> txt_class p c = (n, c1) -> asked c1 c2 -> asked c c2
| as_cell f c n c1 c2 : PF (Some f) -> cell_class f c = (n, c1) -> asked c1 c2 -> asked c c2.
Hypothesis PS_PT : forall sp p, PS sp -> sp_style sp = Some p -> PT p.
Lemma asked_trans a b c : asked a b -> asked b c -> asked a c.
Proof. intros A B. induction A; [exact B | eapply as_txt; eauto | eapply as_cell; eauto]. Qed.
Lemma span_asked sp c ts c' : PS sp -> render_span sp c = (ts, c') -> asked c c'.
Proof.
  unfold render_span. intros H. destruct (sp_style sp) as [p|] eqn:E; [|intros [= <- <-]; constructor].
  destruct (txt_class p c) as [n c1] eqn:T. intros [= <- <-]. eapply as_txt; [exact (PS_PT sp p H E) | exact T | constructor].
Qed.
Lemma all_asked {A} (f : A -> caches -> list tok * caches) l :
  (forall a, In a l -> forall c ts c', f a c = (ts, c') -> asked c c') -> forall c ts c', render_all f l c = (ts, c') -> asked c c'.
Proof.
  induction l as [|a l IH]; intros H c ts c' R; cbn [render_all] in R; [injection R as <- <-; constructor|].
  destruct (f a c) as [t c1] eqn:E1. destruct (render_all f l c1) as [ts2 c2] eqn:E2. injection R as <- <-.
  eapply asked_trans; [exact (H a (or_introl eq_refl) _ _ _ E1) | exact (IH (fun b B => H b (or_intror B)) _ _ _ E2)].
Qed.
Lemma spans_asked sps c ts c' : (forall sp, In sp sps -> PS sp) -> render_all render_span sps c = (ts, c') -> asked c c'.
Proof. intros H. apply all_asked. intros sp I c0 ts0 c1. apply span_asked. exact (H sp I). Qed.
Lemma items_asked : forall n its, (issize its < n)%nat -> (forall i s, In i its -> item_span i s -> PS s) ->
  forall o c ts o' c', render_items its o c = (ts, o', c') -> asked c c'.
Proof.
  induction n as [|n IH]; intros its LT T o c ts o' c' H; [lia|]. destruct its as [|it its]; [cbn in H; injection H as <- <- <-; constructor|].
  assert (LT' : (issize its < n)%nat) by (rewrite issize_cons in LT; pose proof (isize_pos it); lia).
  assert (T' : forall i s, In i its -> item_span i s -> PS s) by (intros i s I; apply T; right; exact I).
  cbn [render_items] in H. destruct it as [sps|l sub].
  - cbn [render_item] in H. destruct (render_all render_span sps c) as [st c1] eqn:E1. destruct (render_items its true c1) as [[ts2 o2] c2] eqn:E2. injection H as <- <- <-.
    eapply asked_trans; [|exact (IH its LT' T' _ _ _ _ _ E2)]. refine (spans_asked sps c st c1 _ E1).
    intros sp I. apply (T (LItem sps)); [left; reflexivity | constructor; exact I].
  - assert (LS : (issize sub < n)%nat) by (rewrite issize_cons, isize_sub in LT; lia).
    rewrite render_item_sub in H. destruct (render_items sub false c) as [[ts1 o1] c1] eqn:E1. destruct (render_items its false c1) as [[ts2 o2] c2] eqn:E2. injection H as <- <- <-.
    assert (TS : forall i s, In i sub -> item_span i s -> PS s).
    { intros i s I J. apply (T (LSub l sub)); [left; reflexivity | exact (ip_sub l sub i s I J)]. }
    eapply asked_trans; [exact (IH sub LS TS _ _ _ _ _ E1) | exact (IH its LT' T' _ _ _ _ _ E2)].
Qed.
Lemma table_asked (ru : hunit -> caches -> list tok * caches) rows :
  (forall row t u, In row rows -> In t row -> In u (tc_elems t) -> forall c ts c', ru u c = (ts, c') -> asked c c') ->
  (forall row t, In row rows -> In t row -> PF (tc_fill t)) ->
  forall y c ts c', render_rows ru y rows c = (ts, c') -> asked c c'.
Proof.
  induction rows as [|row rows IH]; intros H TG y c ts c' R; cbn [render_rows] in R; [injection R as <- <-; constructor|].
  destruct (render_cells ru 0 y row c) as [l c1] eqn:E1. destruct (render_rows ru (y + 1) rows c1) as [ls c2] eqn:E2. injection R as <- <-.
  apply (asked_trans _ c1); [|exact (IH (fun r t u I => H r t u (or_intror I)) (fun r t I => TG r t (or_intror I)) _ _ _ _ E2)].
  clear IH E2 c2 ls. assert (IR : In row (row :: rows)) by (left; reflexivity).
  assert (H' : forall t u, In t row -> In u (tc_elems t) -> forall c ts c', ru u c = (ts, c') -> asked c c') by (intros t u; exact (fun I J => H row t u IR I J)).
  assert (TG' : forall t, In t row -> PF (tc_fill t)) by (intros t; exact (TG row t IR)). clear H TG IR.
  revert c l c1 E1. generalize 0%Z as x. induction row as [|t row IH]; intros x c l c1 E; cbn [render_cells] in E; [injection E as <- <-; constructor|].
  destruct (render_cell ru x y t c) as [l1 d1] eqn:E1. destruct (render_cells ru (x + 1) y row d1) as [l2 d2] eqn:E2. injection E as <- <-.
  apply (asked_trans _ d1); [|exact (IH (fun t u I => H' t u (or_intror I)) (fun t I => TG' t (or_intror I)) _ _ _ _ E2)].
  clear IH E2. unfold render_cell in E1. destruct (negb _); [injection E1 as <- <-; constructor|].
  destruct (match tc_fill t with Some f => cell_class f c | None => (None, c) end) as [cls c0] eqn:E.
  assert (X : asked c c0).
  { specialize (TG' t (or_introl eq_refl)). destruct (tc_fill t) as [p|]; [|injection E as <- <-; constructor]. eapply as_cell; [exact TG' | exact E | constructor]. }
  assert (LOOP : forall us c, (fix loop (us : list hunit) (c : caches) : list tok * caches :=
     match us with
     | [] => ([], c)
     | u :: r => let (t, c') := ru u c in let (ts, c'') := loop r c' in (t ++ ts, c'')
     end) us c = render_all ru us c).
  { induction us as [|u us IHu]; intros d; cbn [render_all]; [reflexivity|]. destruct (ru u d) as [tt d']. rewrite IHu. reflexivity. }
  rewrite LOOP in E1. destruct (render_all ru (tc_elems t) c0) as [tt cc] eqn:RA. injection E1 as <- <-.
  apply (asked_trans _ c0); [exact X|]. refine (all_asked ru (tc_elems t) _ _ _ _ RA). intros u I. apply (H' t u); [left; reflexivity | exact I].
Qed.
Theorem unit_asked : forall n u, (usize u < n)%nat -> holds u -> forall c ts c', render_unit u c = (ts, c') -> asked c c'.
Proof.
  induction n as [|n IH]; intros u LT F c ts c' R; [lia|]. destruct u as [sps|l its|wid id rows]; cbn [render_unit] in R.
  - unfold render_par in R. destruct (render_all render_span sps c) as [t c1] eqn:E. injection R as <- <-. exact (spans_asked _ _ _ _ (F _ (pt_self _)) E).
  - unfold render_list in R. destruct (render_items its false c) as [[t o] c1] eqn:E. injection R as <- <-.
    exact (items_asked (S (issize its)) its (Nat.lt_succ_diag_r _) (proj1 (F _ (pt_self _))) _ _ _ _ _ E).
  - destruct (render_rows render_unit 0 rows c) as [t c1] eqn:E. injection R as <- <-.
    refine (table_asked render_unit rows _ (F _ (pt_self _)) _ _ _ _ E).
    intros row tc u IR IT IU. apply IH.
    + rewrite usize_table in LT. pose proof (in_sum _ _ (in_map (fun row => list_sum (map tsize row)) _ _ IR)) as X1. cbn beta in X1.
      pose proof (in_sum _ _ (in_map tsize _ _ IT)) as X2. pose proof (in_sum _ _ (in_map usize _ _ IU)) as X3.
      destruct tc as [tg es sp o f]. unfold tsize at 1 in X2. cbn [tc_elems] in X3. lia.
    + intros v P. apply F. exact (pt_in wid id rows row tc u v IR IT IU P).
Qed.
Theorem doc_asked version fname title rev us ts c : Forall holds us -> html_doc version fname title rev us = (ts, c) -> asked no_caches c.
Proof.
  unfold html_doc. intros F. destruct (render_all render_unit us no_caches) as [t c1] eqn:E. intros [= <- <-]. revert E. apply all_asked.
  intros u I. apply (unit_asked (S (usize u))); [lia|]. rewrite Forall_forall in F. exact (F u I).
Qed.
End Parts.
