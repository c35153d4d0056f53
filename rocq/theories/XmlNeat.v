(** The pieces written for a docx document are neat. *)
From Coq Require Import NArith ZArith List Bool String Lia.
From Coq Require Import ZifyBool ZifyN ZifyNat.
From Verif Require Import PyTables PyStr PyStrFacts Xml Docx Render SpecText SpecFmt SpecGrid SpecHtml SpecXml XmlProofs XmlText.
From Verif Require Import GridProofs HtmlProofs TableHtml DocxTotal TablesOnce Prop_Html.
Import ListNotations.
Local Open Scope string_scope.
Local Open Scope list_scope.
Local Open Scope N_scope.

(** ** Parts of a unit *)

Inductive part : hunit -> hunit -> Prop :=
| pt_self u : part u u
| pt_in w id rows row t u v : In row rows -> In t row -> In u (tc_elems t) -> part u v -> part (HTable w id rows) v.
Inductive item_text : litem -> str -> Prop :=
| it_item sps sp : In sp sps -> item_text (LItem sps) (sp_text sp)
| it_sub l its i s : In i its -> item_text i s -> item_text (LSub l its) s.
Definition fine1 (u : hunit) : Prop :=
  match u with
  | HPar sps => forall sp, In sp sps -> Forall txt_char (sp_text sp)
  | HList _ its => forall i s, In i its -> item_text i s -> Forall txt_char s
  | HTable _ id rows => match id with Some i => Forall (fun c => isdigit c = true) i | None => True end
      /\ forall row t, In row rows -> In t row -> tc_tag t = utf8 "td" \/ tc_tag t = utf8 "th"
  end.
Definition fine (u : hunit) : Prop := forall v, part u v -> fine1 v.

(** ** Characters *)

Definition letter (c : N) : Prop := name_char c.
Lemma digit_xml c : isdigit c = true -> xml_char c /\ c <> 39.
Proof.
  unfold isdigit, digit_val. destruct (N.ltb_spec c 128) as [L|L].
  - destruct ((48 <=? c) && (c <=? 57)) eqn:E; [|discriminate]. intros _. unfold xml_char. lia.
  - destruct (find _ digit_zeros) as [z|] eqn:F; [|discriminate]. intros _. apply find_some in F as [I B].
    assert (Z : forallb (fun z => ((z + 9 <=? 55295) || ((57344 <=? z) && (z + 9 <=? 65533)) || ((65536 <=? z) && (z + 9 <=? 1114111)))) digit_zeros = true) by reflexivity.
    rewrite forallb_forall in Z. specialize (Z z I). unfold xml_char. lia.
Qed.
Lemma name_char_xml q c : q = 34 \/ q = 39 -> name_char c -> xml_char c /\ c <> q.
Proof. unfold name_char, name_start, xml_char. lia. Qed.
Lemma names_ok1 n v : xname n -> Forall name_char v -> attr_ok (n, v).
Proof.
  intros X F. split; [exact X|]. cbn [fst snd]. eapply Forall_impl; [|exact F]. intros c. apply name_char_xml. apply attr_quote_or.
Qed.
Lemma digits_name n : Forall name_char (str_of_N n).
Proof.
  unfold str_of_N. induction (N.to_uint n); cbn [uint_str]; constructor; try assumption; unfold name_char; lia.
Qed.
Lemma Z_name z : Forall name_char (str_of_Z z).
Proof.
  unfold str_of_Z. destruct z; [constructor; [unfold name_char; lia | constructor] | apply digits_name | constructor; [unfold name_char; lia | apply digits_name]].
Qed.
Ltac chars := match goal with |- Forall _ ?l => let l' := eval vm_compute in l in change l with l' end;
  repeat (apply Forall_cons; [unfold txt_char, xml_char, name_char, name_start; lia|]); apply Forall_nil.
Ltac xn := match goal with |- xname ?l => let l' := eval vm_compute in l in change l with l' end;
  eexists _, _; split; [reflexivity|]; split; [unfold name_start; lia | chars].

Lemma replace_all (P : N -> Prop) c new s : Forall P new -> Forall P s -> Forall P (replace_char c new s).
Proof. intros N F. unfold replace_char. induction F as [|d s D _ IH]; cbn [flat_map]; [constructor|]. destruct (d =? c); apply Forall_app; auto. Qed.
Lemma escape_txt s : Forall txt_char s -> Forall txt_char (html_escape s).
Proof.
  intros F. unfold html_escape.
  repeat (apply replace_all; [chars|]). exact F.
Qed.

(** ** Caches *)

Definition nice (c : caches) : Prop :=
  Forall (fun p => Forall name_char (snd p)) (ca_dict (c_txt c)) /\ Forall (fun p => Forall name_char (snd p)) (ca_dict (c_cell c)).
Lemma get_nice {K} prefix (eq : K -> K -> bool) css k c n c' : Forall name_char prefix -> get_clsname prefix eq css k c = (n, c') ->
  Forall (fun p => Forall name_char (snd p)) (ca_dict c) ->
  Forall (fun p => Forall name_char (snd p)) (ca_dict c') /\ match n with Some m => Forall name_char m | None => True end.
Proof.
  intros P. unfold get_clsname. destruct (css k); [intros [= <- <-]; auto|].
  destruct (find _ _) as [[k' m]|] eqn:F; intros [= <- <-] C.
  - split; [exact C|]. apply find_some in F as [I _]. rewrite Forall_forall in C. exact (C _ I).
  - assert (X : Forall name_char (prefix ++ str_of_N (ca_count c))) by (apply Forall_app; split; [exact P | apply digits_name]).
    split; [|exact X]. cbn [ca_dict]. apply Forall_app. split; [exact C | constructor; [exact X | constructor]].
Qed.
Lemma class_attr n : Forall name_char n -> Forall attr_ok [(utf8 "class", n)].
Proof. intros H. constructor; [|constructor]. apply names_ok1; [xn | exact H]. Qed.
Lemma render_span_neat sp c ts c' : Forall txt_char (sp_text sp) -> nice c -> render_span sp c = (ts, c') -> neat ts /\ nice c'.
Proof.
  intros T [N1 N2]. unfold render_span.
  destruct (match sp_style sp with Some p => txt_class p c | None => (None, c) end) as [cls c1] eqn:E. intros [= <- <-].
  assert (X : nice c1 /\ match cls with Some m => Forall name_char m | None => True end).
  { destruct (sp_style sp) as [p|]; [|injection E as <- <-; split; [split|]; auto]. unfold txt_class in E.
    destruct (get_clsname (utf8 "txtfmt") rp_eqb css_attrs p (c_txt c)) as [n t] eqn:G. injection E as <- <-.
    destruct (get_nice (utf8 "txtfmt") _ _ _ _ _ _ ltac:(chars) G N1) as [X1 X2].
    split; [split; [exact X1 | exact N2] | exact X2]. }
  destruct X as [X1 X2]. split; [|exact X1]. apply ne_text; [left; reflexivity | xn | | apply escape_txt; exact T | constructor].
  destruct cls; [apply class_attr; exact X2 | constructor].
Qed.
Lemma render_all_neat {A} (f : A -> caches -> list tok * caches) l :
  (forall a, In a l -> forall c ts c', nice c -> f a c = (ts, c') -> neat ts /\ nice c') ->
  forall c ts c', nice c -> render_all f l c = (ts, c') -> neat ts /\ nice c'.
Proof.
  induction l as [|a l IH]; intros H c ts c' N R; cbn [render_all] in R; [injection R as <- <-; split; [constructor | exact N]|].
  destruct (f a c) as [t c1] eqn:E1. destruct (render_all f l c1) as [ts2 c2] eqn:E2. injection R as <- <-.
  destruct (H a (or_introl eq_refl) _ _ _ N E1) as [X1 N1]. destruct (IH (fun b B => H b (or_intror B)) _ _ _ N1 E2) as [X2 N2].
  split; [apply neat_app; assumption | exact N2].
Qed.
Lemma render_spans_neat sps c ts c' : (forall sp, In sp sps -> Forall txt_char (sp_text sp)) -> nice c ->
  render_all render_span sps c = (ts, c') -> neat ts /\ nice c'.
Proof. intros H. apply render_all_neat. intros sp I c0 ts0 c1. apply render_span_neat. exact (H sp I). Qed.

Ltac nk := let X := fresh in intros [X|X]; discriminate X.
Lemma closing_neat o : neat (closing o).
Proof. unfold closing. destruct o; repeat constructor. Qed.
Lemma lvl_open l : ~ keeps (lvl_tag l) /\ xname (lvl_tag l) /\ Forall attr_ok [(utf8 "class", lvl_class l)].
Proof.
  assert (X : ~ keeps (lvl_tag l) /\ xname (lvl_tag l) /\ Forall name_char (lvl_tag l)).
  { unfold lvl_tag. destruct (is_ordered l); (split; [nk|]; split; [xn|]; chars). }
  destruct X as (X1 & X2 & X3). split; [exact X1|]. split; [exact X2|]. apply class_attr. unfold lvl_class. apply Forall_app. split; [exact X3 | apply Z_name].
Qed.
Lemma list_neat l ts o : neat ts -> neat ([TOpen (lvl_tag l) [(utf8 "class", lvl_class l)]; TNl] ++ ts ++ closing o ++ [TClose (lvl_tag l); TNl]).
Proof.
  intros N. destruct (lvl_open l) as (X1 & X2 & X3). cbn [app]. apply ne_open; try assumption. apply ne_nl. apply neat_app; [exact N|].
  apply neat_app; [apply closing_neat | repeat constructor].
Qed.
Lemma render_items_neat : forall n its, (issize its < n)%nat -> (forall i s, In i its -> item_text i s -> Forall txt_char s) ->
  forall o c ts o' c', nice c -> render_items its o c = (ts, o', c') -> neat ts /\ nice c'.
Proof.
  induction n as [|n IH]; intros its LT T o c ts o' c' N H; [lia|]. destruct its as [|it its]; [cbn in H; injection H as <- <- <-; split; [constructor | exact N]|].
  assert (LT' : (issize its < n)%nat) by (rewrite issize_cons in LT; pose proof (isize_pos it); lia).
  assert (T' : forall i s, In i its -> item_text i s -> Forall txt_char s) by (intros i s I; apply T; right; exact I).
  cbn [render_items] in H. destruct it as [sps|l sub].
  - cbn [render_item] in H. destruct (render_all render_span sps c) as [st c1] eqn:E1. destruct (render_items its true c1) as [[ts2 o2] c2] eqn:E2. injection H as <- <- <-.
    destruct (render_spans_neat sps c st c1) as [X1 N1]; [|exact N | exact E1|].
    { intros sp I. apply (T (LItem sps)); [left; reflexivity | constructor; exact I]. }
    destruct (IH its LT' T' _ _ _ _ _ N1 E2) as [X2 N2]. split; [|exact N2]. apply neat_app; [|exact X2]. apply neat_app; [destruct o; repeat constructor|].
    cbn [app]. apply ne_open; [nk | xn | constructor | apply ne_nl; exact X1].
  - assert (LS : (issize sub < n)%nat) by (rewrite issize_cons, isize_sub in LT; lia).
    rewrite render_item_sub in H. destruct (render_items sub false c) as [[ts1 o1] c1] eqn:E1. destruct (render_items its false c1) as [[ts2 o2] c2] eqn:E2. injection H as <- <- <-.
    assert (TS : forall i s, In i sub -> item_text i s -> Forall txt_char s).
    { intros i s I J. apply (T (LSub l sub)); [left; reflexivity | apply (it_sub l sub i s I J)]. }
    destruct (IH sub LS TS _ _ _ _ _ N E1) as [X1 N1].
    destruct (IH its LT' T' _ _ _ _ _ N1 E2) as [X2 N2]. split; [|exact N2]. apply neat_app; [|exact X2].
    apply neat_app; [destruct o; [constructor | apply ne_open; [nk | xn | constructor | repeat constructor]]|].
    pose proof (list_neat l ts1 o1 X1) as LN. unfold closing in LN.
    change (neat (([TOpen (lvl_tag l) [(utf8 "class", lvl_class l)]; TNl] ++ ts1 ++ (if o1 then [TClose (utf8 "li"); TNl] else []) ++ [TClose (lvl_tag l); TNl])
      ++ [TClose (utf8 "li"); TNl])).
    apply neat_app; [exact LN | repeat constructor].
Qed.

(** ** Units *)

Lemma render_table_neat (ru : hunit -> caches -> list tok * caches) rows :
  (forall row t u, In row rows -> In t row -> In u (tc_elems t) -> forall c ts c', nice c -> ru u c = (ts, c') -> neat ts /\ nice c') ->
  (forall row t, In row rows -> In t row -> tc_tag t = utf8 "td" \/ tc_tag t = utf8 "th") ->
  forall y c ts c', nice c -> render_rows ru y rows c = (ts, c') -> neat ts /\ nice c'.
Proof.
  induction rows as [|row rows IH]; intros H TG y c ts c' N R; cbn [render_rows] in R; [injection R as <- <-; split; [constructor | exact N]|].
  destruct (render_cells ru 0 y row c) as [l c1] eqn:E1. destruct (render_rows ru (y + 1) rows c1) as [ls c2] eqn:E2. injection R as <- <-.
  assert (X : neat l /\ nice c1).
  { clear IH E2 c2 ls. specialize (H row). specialize (TG row). assert (IR : In row (row :: rows)) by (left; reflexivity).
    assert (H' : forall t u, In t row -> In u (tc_elems t) -> forall c ts c', nice c -> ru u c = (ts, c') -> neat ts /\ nice c') by (intros t u; exact (fun I J => H t u IR I J)).
    assert (TG' : forall t, In t row -> tc_tag t = utf8 "td" \/ tc_tag t = utf8 "th") by (intros t; exact (TG t IR)). clear H TG IR.
    revert c l c1 N E1. generalize 0%Z as x. induction row as [|t row IH]; intros x c l c1 N E; cbn [render_cells] in E; [injection E as <- <-; split; [constructor | exact N]|].
    destruct (render_cell ru x y t c) as [l1 d1] eqn:E1. destruct (render_cells ru (x + 1) y row d1) as [l2 d2] eqn:E2. injection E as <- <-.
    assert (X : neat l1 /\ nice d1).
    { clear IH E2. unfold render_cell in E1. destruct (negb _); [injection E1 as <- <-; split; [constructor | exact N]|].
      destruct (match tc_fill t with Some f => cell_class f c | None => (None, c) end) as [cls c0] eqn:E.
      assert (X : nice c0 /\ match cls with Some m => Forall name_char m | None => True end).
      { destruct (tc_fill t) as [p|]; [|injection E as <- <-; split; [exact N|]; exact Logic.I]. unfold cell_class in E. destruct N as [N1 N2].
        destruct (get_clsname (utf8 "tcell") seqb fill_css p (c_cell c)) as [n k] eqn:G. injection E as <- <-.
        destruct (get_nice (utf8 "tcell") _ _ _ _ _ _ ltac:(chars) G N2) as [X1 X2].
        split; [split; [exact N1 | exact X1] | exact X2]. }
      destruct X as [X1 X2].
      assert (LOOP : forall us c, (fix loop (us : list hunit) (c : caches) : list tok * caches :=
         match us with
         | [] => ([], c)
         | u :: r => let (t, c') := ru u c in let (ts, c'') := loop r c' in (t ++ ts, c'')
         end) us c = render_all ru us c).
      { induction us as [|u us IHu]; intros d; cbn [render_all]; [reflexivity|]. destruct (ru u d) as [tt d']. rewrite IHu. reflexivity. }
      rewrite LOOP in E1. destruct (render_all ru (tc_elems t) c0) as [tt cc] eqn:RA. injection E1 as <- <-.
      destruct (render_all_neat ru (tc_elems t)) with (3 := RA) as [Y1 Y2]; [intros u I; apply (H' t u); [left; reflexivity | exact I] | exact X1|].
      split; [|exact Y2]. cbn [app]. apply ne_open.
      - destruct (TG' t (or_introl eq_refl)) as [-> | ->]; nk.
      - destruct (TG' t (or_introl eq_refl)) as [-> | ->]; xn.
      - unfold cell_attrs. apply Forall_app. split; [destruct (1 <? _)%Z; repeat constructor; try (apply names_ok1; [xn | apply Z_name])|].
        apply Forall_app. split; [destruct (1 <? _)%Z; repeat constructor; try (apply names_ok1; [xn | apply Z_name])|].
        destruct cls; [apply class_attr; exact X2 | constructor].
      - apply neat_app; [exact Y1 | repeat constructor]. }
    destruct X as [X1 M1]. destruct (IH (fun t u I => H' t u (or_intror I)) (fun t I => TG' t (or_intror I)) _ _ _ _ M1 E2) as [X2 M2]. split; [apply neat_app; assumption | exact M2]. }
  destruct X as [X1 N1]. destruct (IH (fun r t u I => H r t u (or_intror I)) (fun r t I => TG r t (or_intror I)) _ _ _ _ N1 E2) as [X2 N2].
  split; [|exact N2]. cbn [app]. apply ne_open; [nk | xn | constructor|]. apply ne_nl. apply neat_app; [exact X1|]. apply ne_close, ne_nl. exact X2.
Qed.
Theorem render_unit_neat : forall n u, (usize u < n)%nat -> fine u -> forall c ts c', nice c -> render_unit u c = (ts, c') -> neat ts /\ nice c'.
Proof.
  induction n as [|n IH]; intros u LT F c ts c' N R; [lia|]. destruct u as [sps|l its|wid id rows]; cbn [render_unit] in R.
  - unfold render_par in R. destruct (render_all render_span sps c) as [t c1] eqn:E. injection R as <- <-.
    destruct (render_spans_neat _ _ _ _ (F _ (pt_self _)) N E) as [X N1]. split; [|exact N1]. cbn [app]. apply ne_open; [nk | xn | constructor|].
    apply ne_nl. apply neat_app; [exact X | repeat constructor].
  - unfold render_list in R. destruct (render_items its false c) as [[t o] c1] eqn:E. injection R as <- <-.
    destruct (render_items_neat (S (issize its)) its (Nat.lt_succ_diag_r _) (F _ (pt_self _)) _ _ _ _ _ N E) as [X N1]. split; [apply (list_neat l t o X) | exact N1].
  - destruct (render_rows render_unit 0 rows c) as [t c1] eqn:E. injection R as <- <-. destruct (F _ (pt_self _)) as [FI FT].
    destruct (render_table_neat render_unit rows) with (4 := E) as [X N1]; [|exact FT | exact N|].
    + intros row tc u IR IT IU. apply IH.
      * rewrite usize_table in LT. pose proof (in_sum _ _ (in_map (fun row => list_sum (map tsize row)) _ _ IR)) as X1. cbn beta in X1.
        pose proof (in_sum _ _ (in_map tsize _ _ IT)) as X2. pose proof (in_sum _ _ (in_map usize _ _ IU)) as X3.
        destruct tc as [tg es sp o f]. unfold tsize at 1 in X2. cbn [tc_elems] in X3. lia.
      * intros v P. apply F. exact (pt_in wid id rows row tc u v IR IT IU P).
    + split; [|exact N1]. cbn [app]. apply ne_open; [nk | xn | | apply ne_nl; apply neat_app; [exact X | repeat constructor]].
      unfold table_attrs. destruct id as [[|a i]|]; try constructor; [|constructor]. split; [xn|]. cbn [fst snd]. eapply Forall_impl; [|exact FI].
      intros d D. apply digit_xml in D. exact D.
Qed.

(** ** The docx document *)

(** Every text in the document has only characters that XML gives back. *)
Definition w_fine (e : welem) : Prop := forall x s, In x (nodes e) -> w_text x = Some s -> Forall txt_char s.
Lemma w_fine_sub e x : w_fine e -> In x (nodes e) -> w_fine x.
Proof. intros F I y s J. apply F. exact (below_trans e x y I J). Qed.
Lemma w_fine_kid e k : w_fine e -> In k (w_kids e) -> w_fine k.
Proof. intros F I. apply (w_fine_sub e); [exact F|]. right. apply kid_below. exact I. Qed.

Lemma elem_first_in t e x : elem_first [t] e = Some x -> In x (w_kids e).
Proof.
  unfold elem_first. cbn [w_path]. intros H. assert (I : In x (flat_map (fun e => [e]) (w_children t e))) by (destruct (flat_map _ _); [discriminate | injection H as ->; left; reflexivity]).
  apply in_flat_map in I as (y & I & [->|[]]). exact (children_kids _ _ _ I).
Qed.
Lemma select_runs_fine ks : forall rs, select_runs ks = DOk rs -> Forall w_fine ks -> Forall w_fine rs.
Proof.
  induction ks as [|k ks IH]; intros rs H F; cbn [select_runs] in H; [injection H as <-; constructor|]. inversion F; subst.
  destruct (is_tag "w:r" k).
  - destruct (select_runs ks) as [l| |]; cbn [dbind] in H; try discriminate. injection H as <-. constructor; [assumption | apply IH; auto].
  - destruct (is_tag "w:hyperlink" k || is_tag "w:fldSimple" k); [|apply IH; assumption].
    destruct (elem_first_req ["w:r"] k) as [x| |] eqn:E; cbn [dbind] in H; try discriminate. destruct (select_runs ks) as [l| |]; cbn [dbind] in H; try discriminate.
    injection H as <-. constructor; [|apply IH; auto]. unfold elem_first_req in E. destruct (elem_first ["w:r"] k) as [y|] eqn:EF; [|discriminate]. injection E as <-.
    apply (w_fine_kid k); [assumption | exact (elem_first_in _ _ _ EF)].
Qed.
Lemma parse_spans_fine d p sps : parse_spans d p = DOk sps -> w_fine p -> forall sp, In sp sps -> Forall txt_char (sp_text sp).
Proof.
  unfold parse_spans. intros H F. destruct (select_runs (w_kids p)) as [rs| |] eqn:S; cbn [dbind] in H; try discriminate.
  destruct (dmap (run_spans d) rs) as [ls| |] eqn:D; cbn [dbind] in H; try discriminate. injection H as <-.
  assert (FR : Forall w_fine rs) by (apply (select_runs_fine _ _ S); apply Forall_forall; intros k I; exact (w_fine_kid p k F I)). clear S F.
  revert ls D. induction FR as [|r rs R _ IH]; intros ls D; cbn [dmap] in D; [injection D as <-; intros sp []|].
  destruct (run_spans d r) as [l| |] eqn:E; cbn [dbind] in D; try discriminate. destruct (dmap (run_spans d) rs) as [ls'| |]; cbn [dbind] in D; try discriminate. injection D as <-.
  cbn [List.concat]. intros sp I. apply in_app_iff in I as [I|I]; [|exact (IH _ eq_refl _ I)].
  unfold run_spans in E. destruct (elem_first ["w:t"] r) as [t|] eqn:EF; [|injection E as <-; destruct I]. destruct (w_text t) as [x|] eqn:T; [|injection E as <-; destruct I].
  destruct (extract_r_rpr (dx_styles d) r) as [st| |]; cbn [dbind] in E; try discriminate. injection E as <-. destruct I as [<-|[]]. cbn [sp_text].
  apply (R t x); [right; apply kid_below; exact (elem_first_in _ _ _ EF) | exact T].
Qed.
Lemma list_elems_fine d fuel : forall st abs i its st', list_elems d fuel st abs i = DOk (its, st') -> Forall w_fine st ->
  Forall w_fine st' /\ forall it s, In it its -> item_text it s -> Forall txt_char s.
Proof.
  induction fuel as [|f IH]; intros st abs i its st' H F; cbn [list_elems] in H; [discriminate|].
  destruct st as [|p rest]; [injection H as <- <-; split; [constructor | intros it s []]|].
  destruct (negb (is_tag "w:p" p)); [injection H as <- <-; split; [exact F | intros it s []]|].
  destruct (is_list_p d p) as [lp| |]; cbn [dbind] in H; try discriminate. destruct (negb lp); [injection H as <- <-; split; [exact F | intros it s []]|].
  destruct (p_num_id p) as [n| |]; cbn [dbind] in H; try discriminate. destruct (p_style d n) as [[a ls]| |]; cbn [dbind] in H; try discriminate.
  destruct (negb (a =? abs)%Z); [injection H as <- <-; split; [exact F | intros it s []]|].
  destruct (p_ilvl p) as [j| |]; cbn [dbind] in H; try discriminate. destruct (i <? j)%Z.
  - destruct (list_head d p) as [[[l a'] i']| |]; cbn [dbind] in H; try discriminate.
    destruct (list_elems d f (p :: rest) a' i') as [[sub st1]| |] eqn:E1; cbn [dbind] in H; try discriminate.
    destruct (list_elems d f st1 abs i) as [[more st2]| |] eqn:E2; cbn [dbind] in H; try discriminate. injection H as <- <-.
    destruct (IH _ _ _ _ _ E1 F) as [F1 T1]. destruct (IH _ _ _ _ _ E2 F1) as [F2 T2]. split; [exact F2|].
    intros it s [<-|I] T; [inversion T; subst; eapply T1; eassumption | eapply T2; eassumption].
  - destruct (j <? i)%Z; [injection H as <- <-; split; [exact F | intros it s []]|].
    destruct (parse_spans d p) as [sps| |] eqn:P; cbn [dbind] in H; try discriminate.
    destruct (list_elems d f rest abs i) as [[more st2]| |] eqn:E2; cbn [dbind] in H; try discriminate. injection H as <- <-.
    inversion F as [|? ? FP FR]; subst. destruct (IH _ _ _ _ _ E2 FR) as [F2 T2]. split; [exact F2|].
    intros it s [<-|I] T; [inversion T; subst; eapply parse_spans_fine; eassumption | eapply T2; eassumption].
Qed.
Lemma find_id_digits rows : match find_id rows with Some i => Forall (fun c => isdigit c = true) i | None => True end.
Proof.
  destruct (find_id rows) as [n|] eqn:E; [|exact Logic.I]. apply C53_id in E as (_ & _ & _ & _ & _ & _ & _ & _ & _ & _ & [_ N] & _). exact N.
Qed.
Lemma cell_tag_or tc : cell_tag tc = utf8 "td" \/ cell_tag tc = utf8 "th".
Proof. unfold cell_tag. destruct (cell_fill tc); [destruct (_ && _)|]; auto. Qed.
Lemma parse_table_fine pa tbl s u s' :
  (forall st s us s', Forall w_fine st -> pa st s = DOk (us, s') -> Forall fine us) ->
  w_fine tbl -> parse_table pa tbl s = DOk (Some u, s') -> fine u.
Proof.
  intros PA F H. destruct (parse_table_cells pa tbl s u s' H) as (m & rows & G & -> & FF).
  assert (C : forall row t, In row rows -> In t row -> exists tc s1 s2, w_fine tc /\ tc_tag t = cell_tag tc /\ pa (w_kids tc) s1 = DOk (tc_elems t, s2)).
  { assert (GC : forall r i g, In r m -> In (i, g) r -> w_fine (g_cell g)).
    { intros r i g R I. pose proof (grid_cells _ _ _ _ _ G R I) as C. unfold cells_of in C. apply in_flat_map in C as (tr & T & C).
      apply children_kids in T, C. exact (w_fine_kid _ _ (w_fine_kid _ _ F T) C). }
    clear - FF GC. induction FF as [|r r' m rows F _ IH]; intros row t; [intros []|]. intros [<-|I] J.
    - specialize (GC r). assert (GC' : forall i g, In (i, g) r -> w_fine (g_cell g)) by (intros i g; apply GC; left; reflexivity). clear GC IH.
      induction F as [|[i g] c r r' (us & s1 & s2 & C & E) _ IH]; [destruct J|]. destruct J as [<-|J].
      + subst c. exists (g_cell g), s1, s2. cbn [snd tc_tag tc_elems] in *. split; [apply (GC' i); left; reflexivity|]. split; [reflexivity | exact C].
      + apply IH; [exact J|]. intros j h I. apply (GC' j). right. exact I.
    - apply (IH (fun r i g R => GC r i g (or_intror R)) row t I J). }
  intros v P. inversion P as [|? ? ? row t w ? IR IT IU P']; subst.
  - cbn [fine1]. split; [apply find_id_digits|]. intros row t IR IT. destruct (C row t IR IT) as (tc & _ & _ & _ & -> & _). apply cell_tag_or.
  - destruct (C row t IR IT) as (tc & s1 & s2 & WF & _ & E).
    assert (FU : Forall fine (tc_elems t)) by (refine (PA _ _ _ _ _ E); apply Forall_forall; intros k K; exact (w_fine_kid _ _ WF K)).
    rewrite Forall_forall in FU. exact (FU _ IU v P').
Qed.
Lemma parse_any_fine d fuel : forall st s us s', Forall w_fine st -> parse_any d fuel st s = DOk (us, s') -> Forall fine us.
Proof.
  induction fuel as [|f IH]; intros st s us s' F H; cbn [parse_any] in H; [discriminate|].
  destruct st as [|cur rest]; [injection H as <- <-; constructor|]. inversion F as [|? ? FC FR]; subst.
  destruct (is_tag "w:tbl" cur).
  - destruct (parse_table (parse_any d f) cur s) as [[t s1]| |] eqn:T; cbn [dbind] in H; try discriminate.
    destruct (parse_any d f rest s1) as [[us' s2]| |] eqn:E; cbn [dbind] in H; try discriminate. injection H as <- <-.
    destruct t as [u|]; [constructor; [exact (parse_table_fine _ _ _ _ _ IH FC T)|]|]; exact (IH _ _ _ _ FR E).
  - destruct (is_tag "w:p" cur); [|exact (IH _ _ _ _ FR H)].
    destruct (is_list_p d cur) as [[]| |]; cbn [dbind] in H; try discriminate.
    + destruct (parse_list d (cur :: rest)) as [[u st']| |] eqn:L; cbn [dbind] in H; try discriminate.
      destruct (parse_any d f st' s) as [[us' s2]| |] eqn:E; cbn [dbind] in H; try discriminate. injection H as <- <-.
      unfold parse_list in L. destruct (list_head d cur) as [[[l a] i]| |]; cbn [dbind] in L; try discriminate.
      destruct (list_elems d _ _ a i) as [[its st2]| |] eqn:LE; cbn [dbind] in L; try discriminate. injection L as <- <-.
      destruct (list_elems_fine _ _ _ _ _ _ _ LE F) as [F2 T2]. constructor; [|exact (IH _ _ _ _ F2 E)].
      intros v P. inversion P; subst. exact T2.
    + unfold parse_paragraph in H. destruct (parse_spans d cur) as [sps| |] eqn:P; cbn [dbind] in H; try discriminate.
      destruct (parse_any d f rest s) as [[us' s2]| |] eqn:E; cbn [dbind] in H; try discriminate. injection H as <- <-.
      destruct sps; [exact (IH _ _ _ _ FR E)|]. constructor; [|exact (IH _ _ _ _ FR E)].
      intros v Q. inversion Q; subst. exact (parse_spans_fine _ _ _ P FC).
Qed.
Lemma parse_tables_fine d tbls : Forall w_fine tbls -> forall s0 us s, parse_tables d tbls s0 = DOk (us, s) -> Forall fine us.
Proof.
  intros FT. induction FT as [|t tbls FC _ IH]; intros s0 us' s H; cbn [parse_tables] in H; [injection H as <- <-; constructor|].
  destruct (parse_table _ t s0) as [[u s1]| |] eqn:T; cbn [dbind] in H; try discriminate.
  destruct (parse_tables d tbls s1) as [[us2 s2]| |] eqn:E; cbn [dbind] in H; try discriminate. injection H as <- <-.
  destruct u as [u|]; [constructor; [exact (parse_table_fine _ _ _ _ _ (parse_any_fine d _) FC T)|]|]; exact (IH _ _ _ E).
Qed.
Lemma tables_fine d : w_fine (dx_body d) -> Forall w_fine (w_all "w:tbl" (dx_body d)).
Proof. intros F. apply Forall_forall. intros x I. apply (w_fine_sub (dx_body d)); [exact F|]. right. unfold w_all in I. apply filter_In in I. tauto. Qed.
Theorem parse_docx_fine d us : parse_docx d = DOk us -> w_fine (dx_body d) -> Forall fine us.
Proof.
  unfold parse_docx. destruct (parse_tables d _ []) as [[us' s]| |] eqn:E; cbn [dbind]; try discriminate. intros [= <-] F.
  exact (parse_tables_fine d _ (tables_fine d F) _ _ _ E).
Qed.
