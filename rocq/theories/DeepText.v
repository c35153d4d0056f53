(** Proofs for C79: the texts of cells with several paragraphs. *)
From Coq Require Import NArith ZArith List Bool String Lia.
From Verif Require Import QueryProofs RunProofs PyTables PyStr PyStrFacts Xml Docx Render Lint RowIter Helpers Extract Document
  SpecText SpecFields SpecLabel SpecHeader SpecRows SpecTable SpecDoc SpecRun SpecReads SpecFmt SpecDocx SpecGrid SpecHtml SpecTables SpecEnd SpecDeep
  MFacts LabelProofs HeaderProofs RowProofs TableProofs GridProofs HtmlProofs TableHtml RestoreProofs
  Prop_Label Prop_Docx Prop_Grid EndProofs.
Import ListNotations.
Local Open Scope string_scope.
Local Open Scope list_scope.
Local Open Scope N_scope.

Notation flat := (flat_map (fun k : kid => itertext (fst k) ++ snd k)).

Lemma breaks_app a b : breaks a -> blank b -> breaks (a ++ b).
Proof. intros (w & -> & B) C. exists (w ++ b). split; [reflexivity|]. apply Forall_app; auto. Qed.
Lemma texts_break ks s w : texts_of ks s -> breaks w -> texts_of ks (w ++ s).
Proof.
  intros H BW. revert w BW. induction H as [v V | k ks s NP NT H IH | p ks rs s TP R RT H IH | p ks rs xs v s TP R RT BV H IH | t ks r s TT RR H IH]; intros w BW.
  - apply te_end. right. destruct V as [->|V]; [rewrite app_nil_r; exact BW | apply breaks_app; [exact BW | apply breaks_blank; exact V]].
  - apply te_other; auto.
  - eapply te_empty; eauto.
  - rewrite app_assoc. eapply te_par; eauto. apply breaks_app; [exact BW | apply breaks_blank; exact BV].
  - destruct RR as [->|(v & u & -> & BV)].
    + cbn [app]. rewrite <- (app_nil_l (w ++ s)). apply te_table; auto.
    + rewrite <- app_assoc. rewrite app_assoc. rewrite app_assoc. apply te_table; [exact TT | | exact H]. right. exists (w ++ v), u. split; [reflexivity|].
      apply breaks_app; [exact BW | apply breaks_blank; exact BV].
Qed.

Section Texts.
Variables (tr cr : list (str * list (str * str))) (d : docx).

(** The text of the items of a list. *)
Inductive items_text : list litem -> str -> Prop :=
| it_nil : items_text [] []
| it_item sps its w v u : breaks w -> v = [] \/ breaks v -> items_text its u -> items_text (LItem sps :: its) (w ++ List.concat (map sp_text sps) ++ v ++ u)
| it_sub l sub its w u1 v u : breaks w -> items_text sub u1 -> breaks v -> items_text its u -> items_text (LSub l sub :: its) (w ++ u1 ++ v ++ u).
Lemma items_flat :
  (forall l its e, list_shows tr l its e -> exists w u, itertext e = w ++ u /\ breaks w /\ items_text its u)
  /\ (forall its ks, items_show tr its ks -> items_text its (flat ks)).
Proof.
  apply lists_mut.
  - intros l its x ks B _ IH. exists x, (flat ks). rewrite itertext_elem. auto.
  - constructor.
  - intros sps its x ks tail rest NS BX BT F _ IH. cbn [flat_map fst snd]. rewrite itertext_elem, (spans_text _ _ _ F), <- !app_assoc. apply it_item; auto.
  - intros sps l sub its x ks e tl tail rest BX BL BT F _ (w & u & E & BW & U) _ IH. cbn [flat_map fst snd]. rewrite itertext_elem, flat_map_app, (spans_text _ _ _ F), <- !app_assoc.
    cbn [flat_map fst snd]. rewrite E, app_nil_r, <- !app_assoc.
    assert (Q : items_text (LSub l sub :: its) (w ++ u ++ (tl ++ tail) ++ flat rest)).
    { apply it_sub; try assumption. apply breaks_app; [exact BL | apply breaks_blank; exact BT]. }
    rewrite <- !app_assoc in Q. exact (it_item sps _ x [] _ BX (or_introl eq_refl) Q).
  - intros l sub its x e tl tail rest BX BL BT _ (w & u & E & BW & U) _ IH. cbn [flat_map fst snd]. rewrite itertext_elem. cbn [flat_map fst snd]. rewrite E, app_nil_r, <- !app_assoc.
    replace (x ++ w ++ u ++ tl ++ tail ++ flat rest) with ((x ++ w) ++ u ++ (tl ++ tail) ++ flat rest) by (rewrite <- !app_assoc; reflexivity).
    apply (it_sub l sub its (x ++ w) u (tl ++ tail) (flat rest)); try assumption; (apply breaks_app; [assumption | apply breaks_blank; assumption]).
Qed.

Lemma list_texts : forall fuel st a i items st', list_elems d fuel st a i = DOk (items, st') -> forall u s, items_text items u -> texts_of st' s ->
  texts_of st (u ++ s).
Proof.
  induction fuel as [|f IH]; intros st a i items st' H u s SX TS; [discriminate|]. cbn [list_elems] in H.
  destruct st as [|p rest]; [injection H as <- <-; inversion SX; subst; exact TS|].
  destruct (is_tag "w:p" p) eqn:TP; cbn [negb] in H; [|injection H as <- <-; inversion SX; subst; exact TS].
  apply is_tag_iff in TP.
  destruct (is_list_p d p) as [lp| |]; cbn [dbind] in H; try discriminate.
  destruct lp; cbn [negb] in H; [|injection H as <- <-; inversion SX; subst; exact TS].
  destruct (p_num_id p) as [n| |]; cbn [dbind] in H; try discriminate.
  destruct (p_style d n) as [[a0 ls]| |]; cbn [dbind] in H; try discriminate.
  destruct (a0 =? a)%Z; cbn [negb] in H; [|injection H as <- <-; inversion SX; subst; exact TS].
  destruct (p_ilvl p) as [j| |]; cbn [dbind] in H; try discriminate.
  destruct (i <? j)%Z.
  - destruct (list_head d p) as [[[l a'] i']| |]; cbn [dbind] in H; try discriminate.
    destruct (list_elems d f (p :: rest) a' i') as [[sub st1]| |] eqn:E1; cbn [dbind] in H; try discriminate.
    destruct (list_elems d f st1 a i) as [[more st2]| |] eqn:E2; cbn [dbind] in H; try discriminate. injection H as <- <-.
    inversion SX as [| |? ? ? w u1 v u2 BW U1 BV U2]; subst. rewrite <- !app_assoc. apply texts_break; [|exact BW].
    eapply (IH _ _ _ _ _ E1); [exact U1|]. apply texts_break; [|exact BV]. eapply (IH _ _ _ _ _ E2); eassumption.
  - destruct (j <? i)%Z; [injection H as <- <-; inversion SX; subst; exact TS|].
    destruct (parse_spans d p) as [sps| |] eqn:PS; cbn [dbind] in H; try discriminate.
    destruct (list_elems d f rest a i) as [[more st1]| |] eqn:E1; cbn [dbind] in H; try discriminate. injection H as <- <-.
    destruct (C65_text _ _ _ PS) as (rs & R & RT).
    inversion SX as [|? ? w v u2 BW BV U2|]; subst. rewrite <- !app_assoc. eapply te_par; try eassumption.
    destruct BV as [->|BV]; [exact (IH _ _ _ _ _ E1 _ _ U2 TS) | apply texts_break; [exact (IH _ _ _ _ _ E1 _ _ U2 TS) | exact BV]].
Qed.

Lemma any_texts : forall fuel st s us s' ks, parse_any d fuel st s = DOk (us, s') -> units_show tr cr us ks -> texts_of st (flat ks).
Proof.
  induction fuel as [|f IH]; intros st s us s' ks H US; [discriminate|]. cbn [parse_any] in H.
  destruct st as [|cur rest]; [injection H as <- <-; inversion US; subst; apply te_end; left; reflexivity|].
  destruct (is_tag "w:tbl" cur) eqn:TT.
  - apply is_tag_iff in TT. destruct (parse_table (parse_any d f) cur s) as [[t s1]| |] eqn:PT; cbn [dbind] in H; try discriminate.
    destruct (parse_any d f rest s1) as [[us1 s2]| |] eqn:PA; cbn [dbind] in H; try discriminate. injection H as <- <-.
    assert (TB : match t with Some u => exists wid id rows, u = HTable wid id rows | None => True end).
    { unfold parse_table in PT. destruct (mem_id _ _); [injection PT as <- <-; exact Logic.I|]. destruct (grid cur); cbn [dbind] in PT; try discriminate.
      destruct (parse_rows _ _ _) as [[rw s3]| |]; cbn [dbind] in PT; try discriminate. injection PT as <- <-. eauto. }
    destruct t as [u|].
    + destruct TB as (wid & id & rows & ->). inversion US as [|? ? e tail ks' SW BT US']; subst. inversion SW as [| |? ? ? x kk BX RS]; subst.
      cbn [flat_map fst snd]. apply te_table; [exact TT | | eapply IH; eassumption]. right. rewrite itertext_elem, <- app_assoc. eauto.
    + rewrite <- (app_nil_l (flat ks)). apply te_table; [exact TT | left; reflexivity | eapply IH; eassumption].
  - destruct (is_tag "w:p" cur) eqn:TP.
    + apply is_tag_iff in TP. destruct (is_list_p d cur) as [lp| |]; cbn [dbind] in H; try discriminate. destruct lp.
      * unfold parse_list in H. destruct (list_head d cur) as [[[l a] i]| |]; cbn [dbind] in H; try discriminate.
        destruct (list_elems d (list_fuel (cur :: rest)) (cur :: rest) a i) as [[items st']| |] eqn:LE; cbn [dbind] in H; try discriminate.
        destruct (parse_any d f st' s) as [[us1 s2]| |] eqn:PA; cbn [dbind] in H; try discriminate. injection H as <- <-.
        inversion US as [|? ? e tail ks' SW BT US']; subst. inversion SW as [|? ? ? LS|]; subst.
        destruct (proj1 items_flat _ _ _ LS) as (w & u & E & BW & U). cbn [flat_map fst snd]. rewrite E, <- !app_assoc. apply texts_break; [|exact BW].
        eapply list_texts; [exact LE | exact U|]. apply texts_break; [|exact BT]. eapply IH; eassumption.
      * unfold parse_paragraph in H. destruct (parse_spans d cur) as [sps| |] eqn:PS; cbn [dbind] in H; try discriminate.
        destruct (parse_any d f rest s) as [[us1 s2]| |] eqn:PA; cbn [dbind] in H; try discriminate. injection H as <- <-.
        destruct (C65_text _ _ _ PS) as (rs & R & RT). destruct sps as [|sp sps].
        -- eapply te_empty; try eassumption. eapply IH; eassumption.
        -- inversion US as [|? ? e tail ks' SW BT US']; subst. inversion SW as [? x kk BX F| |]; subst.
           cbn [flat_map fst snd]. rewrite itertext_elem, (spans_text _ _ _ F), <- !app_assoc. eapply te_par; try eassumption. apply texts_break; [|exact BT]. eapply IH; eassumption.
    + apply is_tag_false in TT. apply is_tag_false in TP. apply te_other; [exact TP | exact TT|]. eapply IH; eassumption.
Qed.
End Texts.

(** ** The beginning of the text *)
Lemma texts_start ks s : texts_of ks s -> s = [] \/ exists r, s = 10 :: r.
Proof.
  induction 1 as [v V | k ks s NP NT H IH | p ks rs s TP R RT H IH | p ks rs xs v s TP R RT BV H IH | t ks r s TT RR H IH]; try exact IH.
  - destruct V as [->|(w & -> & _)]; eauto.
  - destruct BV as (w & -> & _). right. eexists. reflexivity.
  - destruct RR as [->|(w & u & -> & (v & -> & _))]; [exact IH|]. right. eexists. reflexivity.
Qed.
Lemma silent_texts a l s : Forall silent a -> texts_of (a ++ l) s -> exists w s', s = w ++ s' /\ blank w /\ texts_of l s'.
Proof.
  intros F. revert s. induction F as [|k a SK F IH]; intros s T; [exists [], s; split; [reflexivity | split; [constructor | exact T]]|]. cbn [app] in T.
  inversion T as [|? ? ? NP NT T'|? ? rs ? TP R RT T'|? ? rs xs v s0 TP R RT BV T'|? ? r s0 TT RR T']; subst; try exact (IH _ T').
  - destruct SK as [(X & _) | (_ & _ & rs0 & R0 & RT0)]; [contradiction|]. destruct (C65_unique _ _ _ _ _ R0 R RT0 RT) as [_ <-]. cbn [List.concat app].
    destruct (IH _ T') as (w & s' & -> & B & Q). exists (v ++ w), s'. rewrite <- app_assoc. split; [reflexivity|]. split; [apply Forall_app; split; [exact (breaks_blank _ BV) | exact B] | exact Q].
  - destruct SK as [(_ & X) | (X & _)]; [contradiction|]. rewrite X in TT. discriminate TT.
Qed.
Lemma silent_blank a s : Forall silent a -> texts_of a s -> blank s.
Proof.
  intros F T. rewrite <- (app_nil_r a) in T. destruct (silent_texts _ _ _ F T) as (w & s' & -> & B & Q). apply Forall_app. split; [exact B|].
  inversion Q as [? V| | | |]; subst. destruct V as [->|V]; [constructor | exact (breaks_blank _ V)].
Qed.
Lemma opens_texts tc t s : cell_opens tc t -> texts_of (w_kids tc) s ->
  exists w q r, s = w ++ q ++ r /\ blank w /\ trims_to q t /\ (r = [] \/ exists r', r = 10 :: r') /\ (t = [] -> blank r).
Proof.
  intros (a & p & b & rs & xs & K & TP & U & F & R & RT & NE & T & E) H. rewrite K in H. destruct (silent_texts _ _ _ F H) as (w & s' & -> & B & Q).
  inversion Q as [|? ? ? NP NT T'|? ? rs1 ? TP1 R1 RT1 T'|? ? rs1 xs1 v s0 TP1 R1 RT1 BV T'|? ? r s0 TT RR T']; subst; try contradiction.
  - destruct (C65_unique _ _ _ _ _ R R1 RT RT1) as [_ E']. contradiction.
  - destruct (C65_unique _ _ _ _ _ R R1 RT RT1) as [_ <-]. exists (w ++ v), (List.concat xs), s0. rewrite <- app_assoc. split; [reflexivity|].
    split; [apply Forall_app; split; [exact B | exact (breaks_blank _ BV)]|]. split; [exact T|]. split; [exact (texts_start _ _ T')|]. intros Z. exact (silent_blank _ _ (E Z) T').
  - rewrite TP in TT. discriminate TT.
Qed.
Lemma says_texts tc t s : cell_says tc t -> texts_of (w_kids tc) s -> exists w q r, s = w ++ q ++ r /\ blank w /\ blank r /\ trims_to q t.
Proof.
  intros (a & p & b & rs & xs & K & TP & U & F & R & RT & NE & T) H. apply Forall_app in F as [FA FB]. rewrite K in H. destruct (silent_texts _ _ _ FA H) as (w & s' & -> & B & Q).
  inversion Q as [|? ? ? NP NT T'|? ? rs1 ? TP1 R1 RT1 T'|? ? rs1 xs1 v s0 TP1 R1 RT1 BV T'|? ? r s0 TT RR T']; subst; try contradiction.
  - destruct (C65_unique _ _ _ _ _ R R1 RT RT1) as [_ E']. contradiction.
  - destruct (C65_unique _ _ _ _ _ R R1 RT RT1) as [_ <-]. exists (w ++ v), (List.concat xs), s0. rewrite <- app_assoc. split; [reflexivity|].
    split; [apply Forall_app; split; [exact B | exact (breaks_blank _ BV)]|]. split; [exact (silent_blank _ _ FB T') | exact T].
  - rewrite TP in TT. discriminate TT.
Qed.
Lemma says_opens tc t : cell_says tc t -> cell_opens tc t.
Proof.
  intros (a & p & b & rs & xs & K & TP & U & F & R & RT & NE & T). apply Forall_app in F as [FA FB]. exists a, p, b, rs, xs. auto 10.
Qed.

(** [c] is the text [t], or goes on with a line break after it. *)
Definition goes_on (t c : str) : Prop := c = t \/ (t <> [] /\ exists v r, c = t ++ v ++ 10 :: r /\ blank v).
Lemma trimmed_begin c s : SpecLabel.trimmed (c :: s) -> isspace c = false.
Proof. intros [A _]. destruct (isspace c) eqn:E; [|reflexivity]. destruct A. exists c, s. auto. Qed.
Lemma begins_iff s : SpecText.begins isspace s <-> exists c r, s = c :: r /\ isspace c = true.
Proof. split; [intros (c & r & A & B) | intros (c & r & A & B)]; exists c, r; auto. Qed.
Lemma blank_dec s : {blank s} + {~ blank s}.
Proof.
  destruct (forallb isspace s) eqn:E; [left | right].
  - apply Forall_forall. intros c I. rewrite forallb_forall in E. exact (E c I).
  - intros B. assert (X : forallb isspace s = true) by (apply forallb_forall; intros c I; unfold blank in B; rewrite Forall_forall in B; exact (B c I)). congruence.
Qed.
Lemma tells_goes w1 s w2 tc t : blank w1 -> blank w2 -> cell_opens tc t -> texts_of (w_kids tc) s -> goes_on t (strip (w1 ++ s ++ w2)).
Proof.
  intros B1 B2 O T. destruct (opens_texts _ _ _ O T) as (w & q & r & -> & B & TQ & RR & Z). destruct (blank_dec r) as [BR|NB].
  - left. replace (w1 ++ (w ++ q ++ r) ++ w2) with ((w1 ++ w) ++ q ++ (r ++ w2)) by (rewrite <- !app_assoc; reflexivity).
    apply strip_around; [apply Forall_app; auto | apply Forall_app; auto | exact TQ].
  - right. assert (NE : t <> []) by (intros E; exact (NB (Z E))). split; [exact NE|]. destruct TQ as (TT & a & b & -> & BA & BB).
    destruct RR as [->|(r' & ->)]; [destruct NB; constructor|].
    pose proof (strip_trims ((10 :: r') ++ w2)) as (TH & e1 & e2 & E & BE1 & BE2). set (h := strip ((10 :: r') ++ w2)) in *.
    assert (HN : h <> []).
    { intros X. assert (Y : blank ((10 :: r') ++ w2)) by (rewrite E, X; apply Forall_app; split; [exact BE1 | exact BE2]). apply NB. apply Forall_app in Y. exact (proj1 Y). }
    assert (exists m, e1 ++ h = 10 :: m) as (m & EM).
    { destruct e1 as [|x e1]; cbn [app] in *; [destruct h as [|x h']; [congruence|]; cbn [app] in E; injection E as <- _; eauto | injection E as <- _; eauto]. }
    exists b, m. split; [|exact BB]. rewrite <- EM. apply trims_unique. split.
    + destruct t as [|c t]; [congruence|]. split.
      * intros X. apply begins_iff in X as (x & y & E1 & E2). cbn [app] in E1. injection E1 as <- _. rewrite (trimmed_begin _ _ TT) in E2. discriminate.
      * rewrite !rev_app_distr. intros X. apply (proj2 TH). apply begins_iff in X as (x & y & E1 & E2). apply begins_iff.
        destruct (rev h) as [|z z'] eqn:RH; [apply (f_equal (@rev _)) in RH; rewrite rev_involutive in RH; contradiction|]. cbn [app] in E1. injection E1 as <- _. eauto.
    + exists (w1 ++ w ++ a), e2. split; [|split; [apply Forall_app; split; [exact B1|]; apply Forall_app; split; assumption | exact BE2]].
      rewrite <- !app_assoc. do 5 f_equal. exact E.
Qed.
Lemma tells_says w1 s w2 tc t : blank w1 -> blank w2 -> cell_says tc t -> texts_of (w_kids tc) s -> strip (w1 ++ s ++ w2) = t.
Proof.
  intros B1 B2 O T. destruct (says_texts _ _ _ O T) as (w & q & r & -> & B & BR & TQ).
  replace (w1 ++ (w ++ q ++ r) ++ w2) with ((w1 ++ w) ++ q ++ (r ++ w2)) by (rewrite <- !app_assoc; reflexivity).
  apply strip_around; [apply Forall_app; auto | apply Forall_app; auto | exact TQ].
Qed.

(** ** Prefixes *)
Definition no_space (q : str) : Prop := Forall (fun c => isspace c = false) q.
Lemma prefix_through q t v r u : no_space q -> t <> [] -> blank v -> t ++ v ++ 10 :: r = q ++ u -> exists u', t = q ++ u'.
Proof.
  intros NQ. revert t. induction NQ as [|c q HC NQ IH]; intros t NT BV E; [exists t; reflexivity|].
  destruct t as [|c' t]; [congruence|]. cbn [app] in E. injection E as -> E. destruct t as [|c2 t].
  - destruct q as [|c3 q]; [exists []; reflexivity|]. exfalso. apply Forall_inv in NQ. cbv beta in NQ. cbn [app] in E. destruct v as [|x v]; cbn [app] in E; injection E as E _.
    + subst c3. vm_compute in NQ. discriminate.
    + subst x. apply Forall_inv in BV. cbv beta in BV. congruence.
  - destruct (IH (c2 :: t) ltac:(discriminate) BV E) as (u' & ->). exists u'. reflexivity.
Qed.
Lemma lower_char_nonempty c : lower_char c <> [].
Proof.
  unfold lower_char. destruct (c <? 128); [discriminate|]. destruct (assocN c lower_table) as [l|] eqn:E; [|discriminate].
  assert (F : forallb (fun p : N * list N => match snd p with [] => false | _ => true end) lower_table = true) by (vm_compute; reflexivity).
  rewrite forallb_forall in F. specialize (F _ (assocN_In _ _ _ E)). cbn [snd] in F. destruct l; [discriminate F | discriminate].
Qed.
Lemma goes_prefix q t c : no_space q -> q <> [] -> goes_on t c -> ((exists u, lower c = q ++ u) <-> exists u, lower t = q ++ u).
Proof.
  intros NQ NE [->|(NT & v & r & -> & BV)]; [reflexivity|]. rewrite !lower_app, (lower_blanks v BV), lower_cons. change (lower_char 10) with [10]. cbn [app]. split.
  - intros (u & E). eapply prefix_through; [exact NQ | | exact BV | exact E]. destruct t as [|c t]; [congruence|]. rewrite lower_cons. intros X. apply app_eq_nil in X as [X _]. exact (lower_char_nonempty _ X).
  - intros (u & ->). rewrite <- app_assoc. eauto.
Qed.
Lemma upper_break t v r l : no_space l -> upper (t ++ v ++ 10 :: r) <> l.
Proof.
  intros NL E. unfold no_space in NL. rewrite Forall_forall in NL. assert (I : In 10 l).
  { rewrite <- E. unfold upper. apply in_flat_map. exists 10. split; [apply in_or_app; right; apply in_or_app; right; left; reflexivity | left; reflexivity]. }
  specialize (NL 10 I). vm_compute in NL. discriminate.
Qed.
Ltac nospace := unfold no_space; apply Forall_forall; let c := fresh in let I := fresh in intros c I; vm_compute in I; repeat (destruct I as [<-|I]; [vm_compute; reflexivity|]); destruct I.
Lemma goes_special t c : goes_on t c -> ~ special t -> ~ special c.
Proof.
  intros G N SP. assert (G' := G). destruct G' as [->|(NT & v & r & E & BV)]; [contradiction|]. destruct SP as [U|[U|[U|U]]].
  - rewrite E in U. revert U. apply upper_break. nospace.
  - rewrite E in U. revert U. apply upper_break. nospace.
  - rewrite E in U. revert U. apply upper_break. nospace.
  - apply N. right. right. right. apply (goes_prefix _ t c); [nospace | discriminate | exact G | exact U].
Qed.
