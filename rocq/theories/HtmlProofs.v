(** The HTML renderer writes well-formed XML that shows the document. *)
From Coq Require Import NArith ZArith List Bool String Lia ZifyBool ZifyNat ZifyN.
From Verif Require Import PyStr PyStrFacts RangeProofs Xml Docx Render SpecFmt SpecHtml Prop_Fmt.
Import ListNotations.
Local Open Scope string_scope.
Local Open Scope list_scope.

(** ** Reading *)

Lemma reads_det s t t' : reads s t -> reads s t' -> t = t'.
Proof.
  intros H. revert t'. induction H as [|c s t N1 N2 _ IH|n c s t I _ IH]; intros t' H'.
  - inversion H' as [| |n c s u Hn _ E]; [reflexivity|]. exfalso. apply app_eq_nil in E as [-> _]. cbn in Hn. intuition discriminate.
  - inversion H' as [|c' s' u M1 M2 Hs|n c' s' u Hn Hs E]; subst.
    + f_equal. apply IH. exact Hs.
    + exfalso. cbn in Hn. repeat (destruct Hn as [Hn|Hn]; [injection Hn as <- <-; cbn in E; injection E as <- _; congruence|]). destruct Hn.
  - assert (exists u, t' = c :: u /\ reads s u) as (u & -> & Ru).
    { inversion H' as [E1|c' s' u N1 N2 Hs E1|n' c' s' u Hn Hs E1].
      - exfalso. cbn in I. repeat (destruct I as [I|I]; [injection I as <- <-; discriminate|]). destruct I.
      - exfalso. cbn in I. repeat (destruct I as [I|I]; [injection I as <- <-; cbn in E1; injection E1 as -> _; congruence|]). destruct I.
      - cbn in I, Hn.
        repeat (destruct I as [I|I]; [injection I as <- <-;
           repeat (destruct Hn as [Hn|Hn]; [injection Hn as <- <-; cbn in E1; try discriminate; injection E1 as E1; subst; eauto|]); destruct Hn |]).
        destruct I. }
    f_equal. apply IH. exact Ru.
Qed.

Lemma attrs_read_det w a a' : attrs_read w a -> attrs_read w a' -> a = a'.
Proof.
  intros [F _] [F' _]. revert a' F'. induction F as [|p q w a (E & R & _) _ IH]; intros a' F'; inversion F' as [|? q' ? a2 (E' & R' & _) F2]; subst; [reflexivity|].
  f_equal; [|apply IH; exact F2]. destruct q, q'. cbn in *. f_equal; [congruence | exact (reads_det _ _ _ R R')].
Qed.

(** Reading is unambiguous. *)
Lemma content_split b1 x1 k1 : content b1 x1 k1 -> forall b2 x2 k2 t1 t2 r1 r2, content b2 x2 k2 ->
  b1 ++ TClose t1 :: r1 = b2 ++ TClose t2 :: r2 -> b1 = b2 /\ r1 = r2 /\ x1 = x2 /\ k1 = k2.
Proof.
  induction 1 as [|s t ts x ks R _ IH|ts x ks _ IH|tag w a rest x ks A _ IH|tag w a body bx bks rest x ks A _ IHb _ IHr];
    intros b2 x2 k2 t1 t2 r1 r2 H E.
  - destruct H; cbn in E; try discriminate. injection E as _ ->. auto.
  - destruct H as [|s' t' ts' x' ks' R' H'| | |]; cbn in E; try discriminate. injection E as <- E.
    destruct (IH _ _ _ _ _ _ _ H' E) as (-> & -> & -> & ->). rewrite (reads_det _ _ _ R R'). auto.
  - destruct H as [| |ts' x' ks' H'| |]; cbn in E; try discriminate. injection E as E.
    destruct (IH _ _ _ _ _ _ _ H' E) as (-> & -> & -> & ->). auto.
  - destruct H as [| | |tag' w' a' rest' x' ks' A' H'|]; cbn in E; try discriminate. injection E as <- <- E.
    destruct (IH _ _ _ _ _ _ _ H' E) as (-> & -> & -> & ->). rewrite (attrs_read_det _ _ _ A A'). auto.
  - destruct H as [| | | |tag' w' a' body' bx' bks' rest' x' ks' A' Hb' Hr']; cbn in E; try discriminate.
    injection E as <- <- E. rewrite <- !app_assoc in E. cbn [app] in E.
    destruct (IHb _ _ _ _ _ _ _ Hb' E) as (-> & E2 & -> & ->).
    destruct (IHr _ _ _ _ _ _ _ Hr' E2) as (-> & -> & -> & ->). rewrite (attrs_read_det _ _ _ A A'). auto.
Qed.

Theorem content_det ts x ks x' ks' : content ts x ks -> content ts x' ks' -> x = x' /\ ks = ks'.
Proof. intros H H'. destruct (content_split _ _ _ H _ _ _ [] [] [] [] H' eq_refl) as (_ & _ & -> & ->). auto. Qed.

(** Two pieces one after the other. *)
Fixpoint add_tail (ks : list kid) (x : str) : list kid :=
  match ks with
  | [] => []
  | [(e, t)] => [(e, t ++ x)]
  | k :: r => k :: add_tail r x
  end.
Lemma add_tail_cons k k' ks x : add_tail (k :: k' :: ks) x = k :: add_tail (k' :: ks) x.
Proof. destruct k. reflexivity. Qed.

Lemma content_app a x1 k1 b x2 k2 : content a x1 k1 -> content b x2 k2 ->
  match k1 with
  | [] => content (a ++ b) (x1 ++ x2) k2
  | _ => content (a ++ b) x1 (add_tail k1 x2 ++ k2)
  end.
Proof.
  intros H Hb. induction H as [|s t ts x ks R H IH|ts x ks H IH|tag w a rest x ks A H IH|tag w a body bx bks rest x ks A Hb' _ H IH]; cbn [app].
  - exact Hb.
  - destruct ks as [|k ks]; [rewrite <- app_assoc|]; apply ct_text; assumption.
  - destruct ks as [|k ks]; cbn; apply ct_nl; exact IH.
  - destruct ks as [|k ks].
    + cbn [add_tail app]. apply ct_void; assumption.
    + rewrite add_tail_cons. cbn [app]. apply ct_void; assumption.
  - rewrite <- app_assoc. cbn [app]. destruct ks as [|k ks].
    + cbn [add_tail app]. apply ct_elem; assumption.
    + rewrite add_tail_cons. cbn [app]. apply ct_elem; assumption.
Qed.

(** An element followed by a line end. *)
Lemma content_elem_nl tag w a body bx bks rest x ks : attrs_read w a -> content body bx bks -> content rest x ks ->
  content (TOpen tag w :: body ++ TClose tag :: TNl :: rest) [] ((Elem tag a bx bks, 10%N :: x) :: ks).
Proof. intros A B R. apply ct_elem; [exact A | exact B|]. apply ct_nl. exact R. Qed.

Lemma reads_plain s : Forall (fun c => c <> 38 /\ c <> 60)%N s -> reads s s.
Proof. induction 1 as [|c s (A & B) _ IH]; constructor; assumption. Qed.

Definition safe_char (c : N) : Prop := (c <> 38 /\ c <> 60 /\ c <> 34 /\ c <> 9 /\ c <> 10 /\ c <> 13)%N.
Lemma attrs_read_plain w : Forall (fun p => Forall safe_char (snd p)) w -> NoDup (map fst w) -> attrs_read w w.
Proof.
  intros F N. split; [|exact N]. clear N. induction F as [|p w H _ IH]; constructor; [|exact IH].
  split; [reflexivity|]. split.
  - apply reads_plain. eapply Forall_impl; [|exact H]. unfold safe_char. tauto.
  - eapply Forall_impl; [|exact H]. unfold safe_char. tauto.
Qed.
Lemma attrs_read_nil : attrs_read [] [].
Proof. apply attrs_read_plain; constructor. Qed.

(** ** Caches only grow *)

Definition txt_rules (c : caches) := emit_rules css_attrs (c_txt c).
Definition cell_rules (c : caches) := emit_rules fill_css (c_cell c).
Definition grows (c c' : caches) : Prop := incl (txt_rules c) (txt_rules c') /\ incl (cell_rules c) (cell_rules c').
Lemma grows_refl c : grows c c.
Proof. split; apply incl_refl. Qed.
Lemma grows_trans a b c : grows a b -> grows b c -> grows a c.
Proof. intros [A B] [C D]. split; eapply incl_tran; eassumption. Qed.

(** The names are prefix and number. *)
Definition names_ok (c : caches) : Prop :=
  Forall (fun p => Forall safe_char (fst p)) (txt_rules c) /\ Forall (fun p => Forall safe_char (fst p)) (cell_rules c).

Lemma digits_safe n : Forall safe_char (str_of_N n).
Proof.
  apply Forall_forall. intros c H. pose proof (str_of_N_digits n) as D. unfold safe_char.
  assert (isdigit c = true) as X by (unfold SpecText.all in D; rewrite Forall_forall in D; exact (D c H)).
  repeat split; intros ->; discriminate X.
Qed.

Section Get.
Context {K : Type}.
Variables (prefix : str) (eq : K -> K -> bool) (css : K -> list (str * str)).
Hypothesis eq_css : forall a b, css a <> [] -> css b <> [] -> (eq a b = true -> css a = css b).
Hypothesis psafe : Forall safe_char prefix.
(** Entries have CSS attributes. *)
Definition full (c : cache K) : Prop := Forall (fun p => css (fst p) <> []) (ca_dict c).

Lemma get_clsname_rule k c n c' : get_clsname prefix eq css k c = (n, c') -> full c ->
  full c' /\ incl (emit_rules css c) (emit_rules css c')
  /\ (Forall (fun p => Forall safe_char (fst p)) (emit_rules css c) -> Forall (fun p => Forall safe_char (fst p)) (emit_rules css c'))
  /\ match css k with [] => n = None | _ => exists m, n = Some m /\ In (m, css k) (emit_rules css c') end.
Proof.
  unfold get_clsname. destruct (css k) as [|a l] eqn:E.
  - intros [= <- <-] F. split; [exact F|]. split; [apply incl_refl|]. auto.
  - destruct (find (fun p => eq (fst p) k) (ca_dict c)) as [[k' m]|] eqn:FD; intros [= <- <-] F.
    + split; [exact F|]. split; [apply incl_refl|]. split; [auto|]. exists m. split; [reflexivity|].
      apply find_some in FD as [I Q]. cbn in Q. unfold emit_rules. apply in_map_iff. exists (k', m). split; [|exact I].
      cbn. f_equal. rewrite <- E. apply eq_css; [|congruence|exact Q].
      unfold full in F. rewrite Forall_forall in F. exact (F _ I).
    + split; [|split; [|split]].
      * unfold full. cbn [ca_dict]. apply Forall_app. split; [exact F|]. constructor; [cbn; congruence | constructor].
      * unfold emit_rules. cbn [ca_dict]. rewrite map_app. apply incl_appl, incl_refl.
      * intros S. unfold emit_rules. cbn [ca_dict]. rewrite map_app. apply Forall_app. split; [exact S|].
        constructor; [|constructor]. cbn [fst snd]. apply Forall_app. split; [exact psafe | apply digits_safe].
      * eexists. split; [reflexivity|]. unfold emit_rules. cbn [ca_dict]. rewrite map_app. apply in_or_app. right. left. cbn. rewrite E. reflexivity.
Qed.
End Get.

(** What holds of the caches at all times. *)
Definition good (c : caches) : Prop := full css_attrs (c_txt c) /\ full fill_css (c_cell c) /\ names_ok c.
Lemma good_none : good no_caches.
Proof. repeat split; constructor. Qed.

Ltac safe := repeat constructor; discriminate.
Lemma txt_class_rule p c n c' : txt_class p c = (n, c') -> good c ->
  good c' /\ grows c c' /\ match css_attrs p with [] => n = None | _ => exists m, n = Some m /\ In (m, css_attrs p) (txt_rules c') end.
Proof.
  unfold txt_class. destruct (get_clsname _ _ _ p (c_txt c)) as [m t] eqn:G. intros [= <- <-] (F1 & F2 & N1 & N2).
  destruct (get_clsname_rule (utf8 "txtfmt") rp_eqb css_attrs (fun a b A B => proj1 (rp_eq_css a b A B)) ltac:(unfold safe_char; safe) _ _ _ _ G F1) as (X1 & X2 & X3 & X4).
  split; [|split]; [split; [exact X1|]; split; [exact F2|]; split; [apply X3; exact N1 | exact N2] | split; [exact X2 | apply incl_refl] | exact X4].
Qed.
Lemma cell_class_rule p c n c' : cell_class p c = (n, c') -> good c ->
  good c' /\ grows c c' /\ match fill_css p with [] => n = None | _ => exists m, n = Some m /\ In (m, fill_css p) (cell_rules c') end.
Proof.
  unfold cell_class. destruct (get_clsname _ _ _ p (c_cell c)) as [m t] eqn:G. intros [= <- <-] (F1 & F2 & N1 & N2).
  destruct (get_clsname_rule (utf8 "tcell") seqb fill_css (fun a b A B => proj1 (fill_eq_css a b A B)) ltac:(unfold safe_char; safe) _ _ _ _ G F2) as (X1 & X2 & X3 & X4).
  split; [|split]; [split; [exact F1|]; split; [exact X1|]; split; [exact N1 | apply X3; exact N2] | split; [apply incl_refl | exact X2] | exact X4].
Qed.

(** The same with the rules of any later moment. *)
Definition S_span c := span_shows (txt_rules c).
Lemma class_for_incl r r' css a : incl r r' -> class_for r css a -> class_for r' css a.
Proof. intros I. unfold class_for. destruct css; [auto|]. intros (n & E & H). exists n. split; [exact E | apply I; exact H]. Qed.
Lemma span_shows_incl r r' sp k : incl r r' -> span_shows r sp k -> span_shows r' sp k.
Proof. intros I (a & E & C). exists a. split; [exact E | exact (class_for_incl _ _ _ _ I C)]. Qed.
Lemma spans_show_incl r r' sps ks : incl r r' -> Forall2 (span_shows r) sps ks -> Forall2 (span_shows r') sps ks.
Proof. intros I F. induction F; constructor; [eapply span_shows_incl; eassumption | assumption]. Qed.

Scheme list_shows_mut := Minimality for list_shows Sort Prop with items_show_mut := Minimality for items_show Sort Prop.
Combined Scheme lists_mut from list_shows_mut, items_show_mut.
Lemma lists_incl r r' : incl r r' ->
  (forall l its e, list_shows r l its e -> list_shows r' l its e) /\ (forall its ks, items_show r its ks -> items_show r' its ks).
Proof.
  intros I. apply lists_mut; intros.
  - constructor; assumption.
  - constructor.
  - apply is_item; try assumption. eapply spans_show_incl; eassumption.
  - apply is_item_sub; try assumption. eapply spans_show_incl; eassumption.
  - apply is_sub; assumption.
Qed.

Scheme shows_mut := Minimality for shows Sort Prop with rows_show_mut := Minimality for rows_show Sort Prop
  with cells_show_mut := Minimality for cells_show Sort Prop with units_show_mut := Minimality for units_show Sort Prop.
Combined Scheme all_shows_mut from shows_mut, rows_show_mut, cells_show_mut, units_show_mut.
Lemma shows_incl r r' q q' : incl r r' -> incl q q' ->
  (forall u e, shows r q u e -> shows r' q' u e) /\ (forall y rows ks, rows_show r q y rows ks -> rows_show r' q' y rows ks)
  /\ (forall y x ts ks, cells_show r q y x ts ks -> cells_show r' q' y x ts ks) /\ (forall us ks, units_show r q us ks -> units_show r' q' us ks).
Proof.
  intros I J. apply all_shows_mut; intros.
  - apply sw_par; [assumption|]. eapply spans_show_incl; eassumption.
  - apply sw_list. eapply (proj1 (lists_incl r r' I)). assumption.
  - apply sw_table; assumption.
  - apply rs_nil.
  - apply rs_cons; assumption.
  - apply cs_nil.
  - apply cs_skip; assumption.
  - apply cs_cell; try assumption. destruct H0 as (cls & E & C). exists cls. split; [exact E | exact (class_for_incl _ _ _ _ J C)].
  - apply us_nil.
  - apply us_cons; assumption.
Qed.

(** ** Spans *)

Lemma render_span_ok sp c ts c' : render_span sp c = (ts, c') -> good c ->
  good c' /\ grows c c' /\ exists a, ts = [TOpen (utf8 "span") a; TText (html_escape (sp_text sp)); TClose (utf8 "span")]
    /\ attrs_read a a /\ class_for (txt_rules c') (match sp_style sp with Some p => css_attrs p | None => [] end) a.
Proof.
  unfold render_span. destruct (sp_style sp) as [p|].
  - destruct (txt_class p c) as [n c1] eqn:T. intros [= <- <-] G. destruct (txt_class_rule _ _ _ _ T G) as (G1 & G2 & G3).
    split; [exact G1|]. split; [exact G2|]. eexists. split; [reflexivity|]. unfold class_for. destruct (css_attrs p) as [|x l].
    + subst n. split; [apply attrs_read_nil | reflexivity].
    + destruct G3 as (m & -> & I). split; [|eauto]. apply attrs_read_plain; [|repeat constructor; auto].
      constructor; [|constructor]. destruct G1 as (_ & _ & N & _). rewrite Forall_forall in N. exact (N _ I).
  - intros [= <- <-] G. split; [exact G|]. split; [apply grows_refl|]. exists []. split; [reflexivity|]. split; [apply attrs_read_nil | reflexivity].
Qed.

Lemma render_spans_ok sps : forall c ts c', render_all render_span sps c = (ts, c') -> good c ->
  good c' /\ grows c c' /\ exists ks, content ts [] ks /\ Forall2 (span_shows (txt_rules c')) sps ks /\ Forall (fun k => snd k = []) ks.
Proof.
  induction sps as [|sp sps IH]; intros c ts c' H G; cbn [render_all] in H.
  - injection H as <- <-. split; [exact G|]. split; [apply grows_refl|]. exists []. repeat constructor.
  - destruct (render_span sp c) as [t c1] eqn:E1. destruct (render_all render_span sps c1) as [ts2 c2] eqn:E2. injection H as <- <-.
    destruct (render_span_ok _ _ _ _ E1 G) as (G1 & R1 & a & -> & AR & CF). destruct (IH _ _ _ E2 G1) as (G2 & R2 & ks & C & F & T).
    split; [exact G2|]. split; [exact (grows_trans _ _ _ R1 R2)|].
    exists ((Elem (utf8 "span") a (sp_text sp) [], []) :: ks). split; [|split].
    + cbn [app]. apply (ct_elem (utf8 "span") a a [TText (html_escape (sp_text sp))] (sp_text sp) []); [exact AR | | exact C].
      rewrite <- (app_nil_r (sp_text sp)) at 2. apply ct_text; [apply C47_reversible | constructor].
    + constructor; [|exact F]. exists a. split; [reflexivity|]. eapply class_for_incl; [apply (proj1 R2) | exact CF].
    + constructor; [reflexivity | exact T].
Qed.

(** ** Lists *)

Fixpoint isize (i : litem) : nat :=
  match i with LItem _ => 1%nat | LSub _ its => S (list_sum (map isize its)) end.
Definition issize (its : list litem) : nat := list_sum (map isize its).

Lemma issize_cons i r : issize (i :: r) = (isize i + issize r)%nat. Proof. reflexivity. Qed.
Lemma isize_pos i : (1 <= isize i)%nat. Proof. destruct i; cbn [isize]; lia. Qed.
Lemma isize_sub l its : isize (LSub l its) = S (issize its). Proof. reflexivity. Qed.

Lemma render_item_sub l its o c : render_item (LSub l its) o c =
  (let '(ts, o', c') := render_items its false c in
   ((if o then [] else [TOpen (utf8 "li") []; TNl])
       ++ ([TOpen (lvl_tag l) [(utf8 "class", lvl_class l)]; TNl] ++ ts
           ++ (if o' then [TClose (utf8 "li"); TNl] else []) ++ [TClose (lvl_tag l); TNl])
       ++ [TClose (utf8 "li"); TNl], false, c')).
Proof.
  cbn [render_item].
  assert (E : forall its o c, (fix loop (its : list litem) (o : bool) (c : caches) : list tok * bool * caches :=
           match its with
           | [] => ([], o, c)
           | i :: r =>
               let '(t, o', c') := render_item i o c in
               let '(ts, o'', c'') := loop r o' c' in
               (t ++ ts, o'', c'')
           end) its o c = render_items its o c).
  { clear. induction its as [|i its IH]; intros o c; cbn [render_items]; [reflexivity|]. destruct (render_item i o c) as [[t o'] c']. rewrite IH. reflexivity. }
  rewrite E. reflexivity.
Qed.

Definition closing (o : bool) : list tok := if o then [TClose (utf8 "li"); TNl] else [].
Lemma li_open : attrs_read [] []. Proof. exact attrs_read_nil. Qed.
Lemma str_of_Z_safe z : Forall safe_char (str_of_Z z).
Proof.
  unfold str_of_Z. destruct z; [unfold safe_char; safe | apply digits_safe |].
  constructor; [unfold safe_char; repeat split; discriminate | apply digits_safe].
Qed.
Lemma lvl_class_read l : attrs_read [(utf8 "class", lvl_class l)] [(utf8 "class", lvl_class l)].
Proof.
  apply attrs_read_plain; [|repeat constructor; auto]. constructor; [|constructor]. cbn [snd]. unfold lvl_class. apply Forall_app. split; [|apply str_of_Z_safe].
  unfold lvl_tag. destruct (is_ordered l); unfold safe_char; safe.
Qed.
Lemma blank_nl : blank [10%N]. Proof. repeat constructor. Qed.
Lemma breaks_nl : breaks [10%N]. Proof. exists []. split; [reflexivity | constructor]. Qed.
Lemma breaks_blank s : breaks s -> blank s. Proof. intros (w & -> & B). constructor; [reflexivity | exact B]. Qed.
Lemma blank_nl2 x : blank x -> blank (10%N :: x). Proof. intros H. constructor; [reflexivity | exact H]. Qed.

(** A piece without elements before, elements with no text between. *)
Lemma cat0 a k1 b x2 k2 : content a [] k1 -> content b x2 k2 -> x2 = [] ->
  content (a ++ b) [] (k1 ++ k2).
Proof.
  intros A B ->. pose proof (content_app _ _ _ _ _ _ A B) as C. destruct k1 as [|k k1]; [exact C|].
  assert (E : forall ks, add_tail ks [] = ks).
  { clear. induction ks as [|[e t] [|k' ks] IH]; [reflexivity | cbn; rewrite app_nil_r; reflexivity|]. rewrite add_tail_cons, IH. reflexivity. }
  rewrite E in C. exact C.
Qed.

Definition list_toks (l : lvl) (its : list litem) (c : caches) : list tok * caches := render_list l its c.

Lemma render_items_ok : forall n its, (issize its < n)%nat -> forall c, good c ->
  (forall ts o' c', render_items its false c = (ts, o', c') ->
     good c' /\ grows c c' /\ exists ks, content (ts ++ closing o') [] ks /\ items_show (txt_rules c') its ks)
  /\ (forall sps st sk ts o' c', content st [] sk -> Forall2 (span_shows (txt_rules c)) sps sk ->
       render_items its true c = (ts, o', c') ->
     good c' /\ grows c c' /\ exists ks, content (TOpen (utf8 "li") [] :: TNl :: st ++ ts ++ closing o') [] ks
       /\ items_show (txt_rules c') (LItem sps :: its) ks).
Proof.
  induction n as [|n IH]; intros its LT c G; [lia|].
  assert (LIST : forall l sub, (issize sub < n)%nat -> forall c ts o' c', good c -> render_items sub false c = (ts, o', c') ->
     good c' /\ grows c c' /\ exists e, list_shows (txt_rules c') l sub e
       /\ forall rest x ks, content rest x ks ->
            content (([TOpen (lvl_tag l) [(utf8 "class", lvl_class l)]; TNl] ++ ts ++ closing o' ++ [TClose (lvl_tag l); TNl]) ++ rest) [] ((e, 10%N :: x) :: ks)).
  { intros l sub L c0 ts o' c' G0 H. destruct (IH sub L c0 G0) as [A _]. destruct (A _ _ _ H) as (G' & R' & ks & C & S).
    split; [exact G'|]. split; [exact R'|]. exists (Elem (lvl_tag l) [(utf8 "class", lvl_class l)] [10%N] ks). split; [constructor; [apply breaks_nl | exact S]|].
    intros rest x k2 CR. cbn [app]. rewrite <- !app_assoc. cbn [app].
    rewrite (app_assoc ts). apply (content_elem_nl (lvl_tag l) _ _ (TNl :: ts ++ closing o') [10%N] ks rest x k2); [apply lvl_class_read | apply ct_nl; exact C | exact CR]. }
  destruct its as [|it its].
  - split.
    + intros ts o' c' H. cbn in H. injection H as <- <- <-. split; [exact G|]. split; [apply grows_refl|]. exists []. split; constructor.
    + intros sps st sk ts o' c' C F H. cbn in H. injection H as <- <- <-. split; [exact G|]. split; [apply grows_refl|].
      exists [(Elem (utf8 "li") [] [10%N] sk, [10%N])]. split.
      * cbn [closing app]. apply (content_elem_nl (utf8 "li") [] [] (TNl :: st) [10%N] sk [] [] []); [apply li_open | apply ct_nl; exact C | constructor].
      * apply is_item; [exact I | apply breaks_nl | apply breaks_nl | exact F | constructor].
  - assert (LT' : (issize its < n)%nat) by (rewrite issize_cons in LT; pose proof (isize_pos it); lia).
    destruct it as [sps|l sub].
    + (* an item *)
      split.
      * intros ts o' c' H. cbn [render_items render_item] in H.
        destruct (render_all render_span sps c) as [st c1] eqn:E1. destruct (render_items its true c1) as [[ts2 o2] c2] eqn:E2. injection H as <- <- <-.
        destruct (render_spans_ok _ _ _ _ E1 G) as (G1 & R1 & sk & C1 & F1 & _).
        destruct (IH its LT' c1 G1) as [_ B]. destruct (B sps st sk _ _ _ C1 F1 E2) as (G2 & R2 & ks & C2 & S2).
        split; [exact G2|]. split; [exact (grows_trans _ _ _ R1 R2)|]. exists ks. split; [|exact S2].
        cbn [app]. rewrite <- app_assoc. exact C2.
      * intros sps0 st0 sk0 ts o' c' C0 F0 H. cbn [render_items render_item] in H.
        destruct (render_all render_span sps c) as [st c1] eqn:E1. destruct (render_items its true c1) as [[ts2 o2] c2] eqn:E2. injection H as <- <- <-.
        destruct (render_spans_ok _ _ _ _ E1 G) as (G1 & R1 & sk & C1 & F1 & _).
        destruct (IH its LT' c1 G1) as [_ B]. destruct (B sps st sk _ _ _ C1 F1 E2) as (G2 & R2 & ks & C2 & S2).
        split; [exact G2|]. split; [exact (grows_trans _ _ _ R1 R2)|].
        exists ((Elem (utf8 "li") [] [10%N] sk0, [10%N]) :: ks). split.
        -- cbn [app]. rewrite <- !app_assoc.
           apply (content_elem_nl (utf8 "li") [] [] (TNl :: st0) [10%N] sk0 _ [] ks); [apply li_open | apply ct_nl; exact C0 | exact C2].
        -- apply is_item; [exact I | apply breaks_nl | apply breaks_nl | | exact S2].
           eapply spans_show_incl; [|exact F0]. apply (grows_trans _ _ _ R1 R2).
    + (* a nested list *)
      assert (LS : (issize sub < n)%nat) by (rewrite issize_cons, isize_sub in LT; lia).
      split.
      * intros ts o' c' H. cbn [render_items] in H. rewrite render_item_sub in H.
        destruct (render_items sub false c) as [[ts1 o1] c1] eqn:E1. destruct (render_items its false c1) as [[ts2 o2] c2] eqn:E2. injection H as <- <- <-.
        destruct (LIST l sub LS _ _ _ _ G E1) as (G1 & R1 & e & SE & CE).
        destruct (IH its LT' c1 G1) as [A _]. destruct (A _ _ _ E2) as (G2 & R2 & ks & C2 & S2).
        split; [exact G2|]. split; [exact (grows_trans _ _ _ R1 R2)|].
        exists ((Elem (utf8 "li") [] [10%N] [(e, [10%N])], [10%N]) :: ks). split.
        -- specialize (CE [] [] [] ct_nil). rewrite app_nil_r in CE. unfold closing in CE at 1.
           set (body := [TOpen (lvl_tag l) [(utf8 "class", lvl_class l)]; TNl] ++ ts1 ++ (if o1 then [TClose (utf8 "li"); TNl] else []) ++ [TClose (lvl_tag l); TNl]) in *.
           match goal with |- content ?t _ _ => replace t with (TOpen (utf8 "li") [] :: (TNl :: body) ++ TClose (utf8 "li") :: TNl :: ts2 ++ closing o2) by (unfold body; cbn [app]; rewrite <- !app_assoc; cbn [app]; reflexivity) end.
           apply content_elem_nl; [apply li_open | apply ct_nl; exact CE | exact C2].
        -- apply is_sub; try apply breaks_nl; [|exact S2]. eapply (proj1 (lists_incl _ _ (proj1 R2))); exact SE.
      * intros sps0 st0 sk0 ts o' c' C0 F0 H. cbn [render_items] in H. rewrite render_item_sub in H.
        destruct (render_items sub false c) as [[ts1 o1] c1] eqn:E1. destruct (render_items its false c1) as [[ts2 o2] c2] eqn:E2. injection H as <- <- <-.
        destruct (LIST l sub LS _ _ _ _ G E1) as (G1 & R1 & e & SE & CE).
        destruct (IH its LT' c1 G1) as [A _]. destruct (A _ _ _ E2) as (G2 & R2 & ks & C2 & S2).
        split; [exact G2|]. split; [exact (grows_trans _ _ _ R1 R2)|].
        exists ((Elem (utf8 "li") [] [10%N] (sk0 ++ [(e, [10%N])]), [10%N]) :: ks). split.
        -- specialize (CE [] [] [] ct_nil). rewrite app_nil_r in CE. unfold closing in CE at 1.
           set (body := [TOpen (lvl_tag l) [(utf8 "class", lvl_class l)]; TNl] ++ ts1 ++ (if o1 then [TClose (utf8 "li"); TNl] else []) ++ [TClose (lvl_tag l); TNl]) in *.
           match goal with |- content ?t _ _ =>
             replace t with (TOpen (utf8 "li") [] :: (TNl :: st0 ++ body) ++ TClose (utf8 "li") :: TNl :: ts2 ++ closing o2)
               by (unfold body; cbn [app]; rewrite <- !app_assoc; cbn [app]; rewrite <- ?app_assoc; cbn [app]; reflexivity) end.
           apply content_elem_nl; [apply li_open | | exact C2]. apply ct_nl. apply (cat0 _ _ _ _ _ C0 CE). reflexivity.
        -- apply is_item_sub; try apply breaks_nl; [| |exact S2].
           ++ eapply spans_show_incl; [|exact F0]. apply (grows_trans _ _ _ R1 R2).
           ++ eapply (proj1 (lists_incl _ _ (proj1 R2))); exact SE.
Qed.

Lemma render_list_ok l its c ts c' : render_list l its c = (ts, c') -> good c ->
  good c' /\ grows c c' /\ exists e, list_shows (txt_rules c') l its e
    /\ forall rest x ks, content rest x ks -> content (ts ++ rest) [] ((e, 10%N :: x) :: ks).
Proof.
  unfold render_list. destruct (render_items its false c) as [[t o] c1] eqn:E. intros [= <- <-] G.
  destruct (render_items_ok (S (issize its)) its (Nat.lt_succ_diag_r _) c G) as [A _]. destruct (A _ _ _ E) as (G' & R' & ks & C & S).
  split; [exact G'|]. split; [exact R'|]. exists (Elem (lvl_tag l) [(utf8 "class", lvl_class l)] [10%N] ks). split; [constructor; [apply breaks_nl | exact S]|].
  intros rest x k2 CR. cbn [app]. rewrite <- !app_assoc. cbn [app].
  change (if o then [TClose (utf8 "li"); TNl] else []) with (closing o). rewrite (app_assoc t).
  apply (content_elem_nl (lvl_tag l) _ _ (TNl :: t ++ closing o) [10%N] ks rest x k2); [apply lvl_class_read | apply ct_nl; exact C | exact CR].
Qed.

(** ** Units *)

Fixpoint usize (u : hunit) : nat :=
  match u with
  | HPar _ | HList _ _ => 1%nat
  | HTable _ _ rows => S (list_sum (map (fun row => list_sum (map (fun t => match t with TC _ es _ _ _ => S (list_sum (map usize es)) end) row)) rows))
  end.
Definition tsize (t : tcell) : nat := match t with TC _ es _ _ _ => S (list_sum (map usize es)) end.

(** What a unit is expected to be rendered as. *)
Definition unit_ok (u : hunit) : Prop := forall c ts c', render_unit u c = (ts, c') -> good c ->
  good c' /\ grows c c' /\ exists e, shows (txt_rules c') (cell_rules c') u e
    /\ forall rest x ks, content rest x ks -> content (ts ++ rest) [] ((e, 10%N :: x) :: ks).
(** The ids of tables are written without escaping. *)
Fixpoint ids_safe (u : hunit) : Prop :=
  match u with
  | HPar _ | HList _ _ => True
  | HTable _ id rows =>
      match id with Some i => Forall safe_char i | None => True end
      /\ fold_right (fun row P => fold_right (fun t P => match t with TC _ es _ _ _ => fold_right (fun u P => ids_safe u /\ P) True es end /\ P) True row /\ P) True rows
  end.

Lemma fold_and {A} (P : A -> Prop) l : fold_right (fun a Q => P a /\ Q) True l <-> Forall P l.
Proof.
  induction l as [|a l IH]; cbn [fold_right]; split; intros H; [constructor | exact Logic.I | |].
  - destruct H as [H1 H2]. constructor; [exact H1 | apply IH; exact H2].
  - inversion H; subst. split; [assumption | apply IH; assumption].
Qed.
Definition cell_safe (t : tcell) : Prop := Forall ids_safe (tc_elems t).
Lemma ids_safe_table wid id rows : ids_safe (HTable wid id rows) <->
  match id with Some i => Forall safe_char i | None => True end /\ Forall (Forall cell_safe) rows.
Proof.
  cbn [ids_safe]. match goal with |- _ /\ ?X <-> _ => assert (X <-> Forall (Forall cell_safe) rows) as -> end; [|reflexivity].
  induction rows as [|row rows IH]; cbn [fold_right]; [split; constructor|]. rewrite IH.
  assert (forall row, fold_right (fun t P => match t with TC _ es _ _ _ => fold_right (fun u P => ids_safe u /\ P) True es end /\ P) True row <-> Forall cell_safe row) as ->.
  { clear. induction row as [|[tg es sp o f] row IH]; cbn [fold_right]; [split; constructor|]. rewrite IH, fold_and. split; [intros [A B]; constructor; assumption | intros H; inversion H; subst; split; assumption]. }
  split; [intros [A B]; constructor; assumption | intros H; inversion H; subst; split; assumption].
Qed.

Lemma render_loop us : forall c, (fix loop (us : list hunit) (c : caches) : list tok * caches :=
         match us with
         | [] => ([], c)
         | u :: r => let (t, c') := render_unit u c in let (ts, c'') := loop r c' in (t ++ ts, c'')
         end) us c = render_all render_unit us c.
Proof. induction us as [|u us IH]; intros c; cbn [render_all]; [reflexivity|]. destruct (render_unit u c) as [t c']. rewrite IH. reflexivity. Qed.

Notation "'SH' c" := (shows (txt_rules c) (cell_rules c)) (at level 9, c at level 8, only parsing).

Lemma units_grow c c' us ks : grows c c' -> units_show (txt_rules c) (cell_rules c) us ks -> units_show (txt_rules c') (cell_rules c') us ks.
Proof. intros [A B]. apply (shows_incl _ _ _ _ A B). Qed.
Lemma cells_grow c c' y x ts ks : grows c c' -> cells_show (txt_rules c) (cell_rules c) y x ts ks -> cells_show (txt_rules c') (cell_rules c') y x ts ks.
Proof. intros [A B]. apply (shows_incl _ _ _ _ A B). Qed.
Lemma rows_grow c c' y rows ks : grows c c' -> rows_show (txt_rules c) (cell_rules c) y rows ks -> rows_show (txt_rules c') (cell_rules c') y rows ks.
Proof. intros [A B]. apply (shows_incl _ _ _ _ A B). Qed.
Lemma shows_grow c c' u e : grows c c' -> shows (txt_rules c) (cell_rules c) u e -> shows (txt_rules c') (cell_rules c') u e.
Proof. intros [A B]. apply (shows_incl _ _ _ _ A B). Qed.

Lemma render_units_ok us : Forall unit_ok us -> forall c ts c', render_all render_unit us c = (ts, c') -> good c ->
  good c' /\ grows c c' /\ exists ks, content ts [] ks /\ units_show (txt_rules c') (cell_rules c') us ks.
Proof.
  induction 1 as [|u us U _ IH]; intros c ts c' H G; cbn [render_all] in H.
  - injection H as <- <-. split; [exact G|]. split; [apply grows_refl|]. exists []. split; constructor.
  - destruct (render_unit u c) as [t c1] eqn:E1. destruct (render_all render_unit us c1) as [ts2 c2] eqn:E2. injection H as <- <-.
    destruct (U _ _ _ E1 G) as (G1 & R1 & e & S1 & C1). destruct (IH _ _ _ E2 G1) as (G2 & R2 & ks & C2 & S2).
    split; [exact G2|]. split; [exact (grows_trans _ _ _ R1 R2)|]. exists ((e, [10%N]) :: ks). split; [apply C1; exact C2|].
    apply us_cons; [exact (shows_grow _ _ _ _ R2 S1) | exists []; split; [reflexivity | constructor] | exact S2].
Qed.

Lemma cell_attrs_read t cls : match cls with Some n => Forall safe_char n | None => True end -> attrs_read (cell_attrs t cls) (cell_attrs t cls).
Proof.
  intros H. apply attrs_read_plain; unfold cell_attrs.
  - apply Forall_app; split; [|apply Forall_app; split];
      repeat match goal with |- context [if ?b then _ else _] => destruct b end; destruct cls; repeat constructor; try apply str_of_Z_safe; assumption.
  - destruct (1 <? fst (tc_span t))%Z, (1 <? snd (tc_span t))%Z, cls; cbn [app map fst];
      repeat constructor; cbn [In]; intuition discriminate.
Qed.

Lemma render_cell_ok t : Forall unit_ok (tc_elems t) -> forall x y c ts c', tc_origin t = (x, y) ->
  render_cell render_unit x y t c = (ts, c') -> good c ->
  good c' /\ grows c c' /\ exists a ks, cell_attributes (cell_rules c') t a /\ units_show (txt_rules c') (cell_rules c') (tc_elems t) ks
    /\ forall rest x ks2, content rest x ks2 -> content (ts ++ rest) [] ((Elem (tc_tag t) a [] ks, 10%N :: x) :: ks2).
Proof.
  intros U x y c ts c' O H G. unfold render_cell in H. rewrite O in H. cbn [fst snd] in H. rewrite !Z.eqb_refl in H. cbn [andb negb] in H.
  rewrite render_loop in H || idtac.
  assert (exists cls c1, (match tc_fill t with Some f => cell_class f c | None => (None, c) end) = (cls, c1)
     /\ good c1 /\ grows c c1 /\ class_for (cell_rules c1) (match tc_fill t with Some f => fill_css f | None => [] end) (match cls with Some n => [(utf8 "class", n)] | None => [] end)
     /\ match cls with Some n => Forall safe_char n | None => True end) as (cls & c1 & E1 & G1 & R1 & CF & SF).
  { destruct (tc_fill t) as [f|].
    - destruct (cell_class f c) as [n c1] eqn:T. destruct (cell_class_rule _ _ _ _ T G) as (G1 & G2 & G3). exists n, c1.
      split; [reflexivity|]. split; [exact G1|]. split; [exact G2|]. unfold class_for. destruct (fill_css f) as [|p l].
      + subst n. auto.
      + destruct G3 as (m & -> & I). split; [eauto|]. destruct G1 as (_ & _ & _ & N). rewrite Forall_forall in N. exact (N _ I).
    - exists None, c. split; [reflexivity|]. split; [exact G|]. split; [apply grows_refl|]. split; reflexivity || exact Logic.I. }
  rewrite E1 in H. rewrite render_loop in H. destruct (render_all render_unit (tc_elems t) c1) as [tt c2] eqn:E2. injection H as <- <-.
  destruct (render_units_ok _ U _ _ _ E2 G1) as (G2 & R2 & ks & C2 & S2).
  split; [exact G2|]. split; [exact (grows_trans _ _ _ R1 R2)|]. exists (cell_attrs t cls), ks. split; [|split; [exact S2|]].
  - eexists. split; [reflexivity|]. exact (class_for_incl _ _ _ _ (proj2 R2) CF).
  - intros rest z ks2 CR. cbn [app]. rewrite <- app_assoc. cbn [app]. apply content_elem_nl; [apply cell_attrs_read; exact SF | exact C2 | exact CR].
Qed.

Lemma render_cells_ok row : Forall (fun t => Forall unit_ok (tc_elems t)) row -> forall x y c ts c',
  render_cells render_unit x y row c = (ts, c') -> good c ->
  good c' /\ grows c c' /\ exists ks, content ts [] ks /\ cells_show (txt_rules c') (cell_rules c') y x row ks.
Proof.
  induction 1 as [|t row U _ IH]; intros x y c ts c' H G; cbn [render_cells] in H.
  - injection H as <- <-. split; [exact G|]. split; [apply grows_refl|]. exists []. split; constructor.
  - destruct (render_cell render_unit x y t c) as [l c1] eqn:E1. destruct (render_cells render_unit (x + 1) y row c1) as [ls c2] eqn:E2. injection H as <- <-.
    destruct (tc_origin t) as [ox oy] eqn:O.
    destruct (negb ((ox =? x)%Z && (oy =? y)%Z)) eqn:B.
    + pose proof E1 as E1'. unfold render_cell in E1'. rewrite O in E1'. cbn [fst snd] in E1'. rewrite B in E1'. injection E1' as <- <-.
      destruct (IH _ _ _ _ _ E2 G) as (G2 & R2 & ks & C2 & S2). split; [exact G2|]. split; [exact R2|]. exists ks. split; [exact C2|].
      apply cs_skip; [|exact S2]. rewrite O. intros [= -> ->]. rewrite !Z.eqb_refl in B. discriminate.
    + assert (ox = x /\ oy = y) as [-> ->] by lia.
      destruct (render_cell_ok t U x y c l c1 O E1 G) as (G1 & R1 & a & ks1 & A1 & S1 & C1).
      destruct (IH _ _ _ _ _ E2 G1) as (G2 & R2 & ks & C2 & S2). split; [exact G2|]. split; [exact (grows_trans _ _ _ R1 R2)|].
      exists ((Elem (tc_tag t) a [] ks1, [10%N]) :: ks). split; [apply C1; exact C2|].
      apply cs_cell; [exact O | | exact (units_grow _ _ _ _ R2 S1) | apply breaks_nl | exact S2].
      destruct A1 as (cls & -> & CF). exists cls. split; [reflexivity|]. exact (class_for_incl _ _ _ _ (proj2 R2) CF).
Qed.

Lemma render_rows_ok rows : Forall (Forall (fun t => Forall unit_ok (tc_elems t))) rows -> forall y c ts c',
  render_rows render_unit y rows c = (ts, c') -> good c ->
  good c' /\ grows c c' /\ exists ks, content ts [] ks /\ rows_show (txt_rules c') (cell_rules c') y rows ks.
Proof.
  induction 1 as [|row rows U _ IH]; intros y c ts c' H G; cbn [render_rows] in H.
  - injection H as <- <-. split; [exact G|]. split; [apply grows_refl|]. exists []. split; constructor.
  - destruct (render_cells render_unit 0 y row c) as [l c1] eqn:E1. destruct (render_rows render_unit (y + 1) rows c1) as [ls c2] eqn:E2. injection H as <- <-.
    destruct (render_cells_ok row U _ _ _ _ _ E1 G) as (G1 & R1 & k1 & C1 & S1). destruct (IH _ _ _ _ E2 G1) as (G2 & R2 & ks & C2 & S2).
    split; [exact G2|]. split; [exact (grows_trans _ _ _ R1 R2)|].
    exists ((Elem (utf8 "tr") [] [10%N] k1, [10%N]) :: ks). split.
    + apply (content_elem_nl (utf8 "tr") [] [] (TNl :: l) [10%N] k1 ls [] ks); [apply attrs_read_nil | apply ct_nl; exact C1 | exact C2].
    + apply rs_cons; [apply breaks_nl | apply breaks_nl | exact (cells_grow _ _ _ _ _ _ R2 S1) | exact S2].
Qed.

Lemma usize_table wid id rows : usize (HTable wid id rows) = S (list_sum (map (fun row => list_sum (map tsize row)) rows)).
Proof. reflexivity. Qed.
Lemma in_sum n l : In n l -> (n <= list_sum l)%nat.
Proof. induction l as [|a l IH]; [intros []|]. intros [->|H]; cbn [list_sum fold_right]; [lia|]. apply IH in H. unfold list_sum in H. lia. Qed.

Theorem unit_all : forall n u, (usize u < n)%nat -> ids_safe u -> unit_ok u.
Proof.
  induction n as [|n IH]; intros u LT S; [lia|]. destruct u as [sps|l its|wid id rows]; intros c ts c' H G; cbn [render_unit] in H.
  - unfold render_par in H. destruct (render_all render_span sps c) as [t c1] eqn:E. injection H as <- <-.
    destruct (render_spans_ok _ _ _ _ E G) as (G1 & R1 & ks & C & F & _). split; [exact G1|]. split; [exact R1|].
    exists (Elem (utf8 "p") [] [10%N] ks). split; [apply sw_par; [apply breaks_nl | exact F]|].
    intros rest x k2 CR. cbn [app]. rewrite <- app_assoc. cbn [app].
    apply (content_elem_nl (utf8 "p") [] [] (TNl :: t) [10%N] ks rest x k2); [apply attrs_read_nil | apply ct_nl; exact C | exact CR].
  - destruct (render_list_ok _ _ _ _ _ H G) as (G1 & R1 & e & S1 & C1). split; [exact G1|]. split; [exact R1|]. exists e. split; [apply sw_list; exact S1 | exact C1].
  - destruct (render_rows render_unit 0 rows c) as [t c1] eqn:E. injection H as <- <-.
    apply ids_safe_table in S as [SI SR].
    assert (U : Forall (Forall (fun t => Forall unit_ok (tc_elems t))) rows).
    { rewrite usize_table in LT. apply Forall_forall. intros row IR. apply Forall_forall. intros tc IT. apply Forall_forall. intros u IU.
      apply IH.
      - pose proof (in_sum _ _ (in_map (fun row => list_sum (map tsize row)) _ _ IR)) as X1. cbn beta in X1.
        pose proof (in_sum _ _ (in_map tsize _ _ IT)) as X2. pose proof (in_sum _ _ (in_map usize _ _ IU)) as X3.
        destruct tc as [tg es sp o f]. unfold tsize at 1 in X2. cbn [tc_elems] in X3. lia.
      - rewrite Forall_forall in SR. specialize (SR _ IR). rewrite Forall_forall in SR. specialize (SR _ IT). unfold cell_safe in SR. rewrite Forall_forall in SR. exact (SR _ IU). }
    destruct (render_rows_ok rows U _ _ _ _ E G) as (G1 & R1 & ks & C1 & S1). split; [exact G1|]. split; [exact R1|].
    exists (Elem (utf8 "table") (table_attrs id) [10%N] ks). split; [apply sw_table; [apply breaks_nl | exact S1]|].
    intros rest x k2 CR. cbn [app]. rewrite <- app_assoc. cbn [app].
    apply (content_elem_nl (utf8 "table") _ _ (TNl :: t) [10%N] ks rest x k2); [|apply ct_nl; exact C1 | exact CR].
    unfold table_attrs. destruct id as [[|a i]|]; try apply attrs_read_nil. apply attrs_read_plain; [constructor; [exact SI | constructor] | repeat constructor; auto].
Qed.
Theorem units_all us : Forall ids_safe us -> Forall unit_ok us.
Proof. intros F. eapply Forall_impl; [|exact F]. intros u S. exact (unit_all (Datatypes.S (usize u)) u (Nat.lt_succ_diag_r _) S). Qed.
