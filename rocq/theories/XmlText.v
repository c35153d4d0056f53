(** The characters of the HTML file: reading them as XML gives what the pieces stand for. *)
From Coq Require Import NArith ZArith List Bool String Lia.
From Coq Require Import ZifyBool ZifyN ZifyNat.
From Verif Require Import PyTables PyStr PyStrFacts Xml Docx Render SpecText SpecFmt SpecGrid SpecHtml SpecXml XmlProofs.
From Verif Require Import GridProofs HtmlProofs TableHtml DocxTotal TablesOnce Prop_Html.
Import ListNotations.
Local Open Scope string_scope.
Local Open Scope list_scope.
Local Open Scope N_scope.

(** ** From pieces to characters *)

Definition txt_char (c : N) : Prop := xml_char c /\ c <> 13.
Lemma reads_xcontent s t : reads s t -> Forall txt_char s -> forall r x ks, xcontent r x ks -> xcontent (s ++ r) (t ++ x) ks.
Proof.
  induction 1 as [|c s t N1 N2 _ IH|n c s t I _ IH]; intros F r x ks X; cbn [app].
  - exact X.
  - inversion F as [|? ? [C N] F']; subst. apply xc_char; try assumption. apply IH; assumption.
  - apply Forall_app in F as [_ F]. rewrite <- app_assoc. apply xc_ref; [exact I | apply IH; assumption].
Qed.
Lemma reads_xvalue q w v : reads w v -> Forall (fun c => xml_char c /\ c <> q /\ c <> 9 /\ c <> 10 /\ c <> 13) w -> xvalue q w v.
Proof.
  induction 1 as [|c s t N1 N2 _ IH|n c s t I _ IH]; intros F.
  - constructor.
  - inversion F as [|? ? (C & Q & A1 & A2 & A3) F']; subst. destruct (N.eq_dec c 32) as [->|N].
    + apply xv_space; [left; reflexivity | discriminate | apply IH; exact F'].
    + apply xv_char; try assumption; [unfold xml_space; lia | apply IH; exact F'].
  - apply Forall_app in F as [_ F]. apply xv_ref; [exact I | apply IH; exact F].
Qed.
Definition attr_ok (p : str * str) : Prop := xname (fst p) /\ Forall (fun c => xml_char c /\ c <> attr_quote (fst p)) (snd p).
Lemma attr_quote_or n : attr_quote n = 34 \/ attr_quote n = 39.
Proof. unfold attr_quote. destruct (seqb n (utf8 "id")); auto. Qed.
Lemma attrs_written w a : attrs_read w a -> Forall attr_ok w -> xattrs (flat_map show_attr w) a /\ NoDup (map fst a).
Proof.
  intros [F ND] O. assert (E : map fst a = map fst w) by (clear - F; induction F as [|p q w a (E & _) _ IH]; cbn [map]; congruence).
  split; [|rewrite E; exact ND]. clear E ND. induction F as [|[k wv] [k' v] w a (E & R & Q) _ IH]; [constructor|]. cbn [fst snd] in *. subst k'.
  inversion O as [|? ? [XN C] O']; subst. cbn [fst snd] in *. cbn [flat_map]. unfold show_attr at 1. cbn [fst snd].
  replace ((utf8 " " ++ k ++ [61; attr_quote k] ++ wv ++ [attr_quote k]) ++ flat_map show_attr w)
    with ([32] ++ k ++ [] ++ [61] ++ [] ++ [attr_quote k] ++ wv ++ [attr_quote k] ++ flat_map show_attr w)
    by (change (utf8 " ") with [32]; repeat (progress (cbn [app]; rewrite <- ?app_assoc)); reflexivity).
  apply xa_cons; try apply attr_quote_or; try assumption; try constructor; try discriminate.
  - left. reflexivity.
  - constructor.
  - apply reads_xvalue; [exact R|]. clear - C Q. induction Q as [|c s Q _ IH]; [constructor|]. inversion C; subst. constructor; [tauto | apply IH; assumption].
  - apply IH. exact O'.
Qed.

(** The elements that hold text. *)
Definition keeps (tag : str) : Prop := tag = utf8 "span" \/ tag = utf8 "title".
(** Pieces as they are written: text only as the whole of such an element. *)
Inductive neat : list tok -> Prop :=
| ne_nil : neat []
| ne_open tag w ts : ~ keeps tag -> xname tag -> Forall attr_ok w -> neat ts -> neat (TOpen tag w :: ts)
| ne_void tag w ts : xname tag -> Forall attr_ok w -> neat ts -> neat (TVoid tag w :: ts)
| ne_close tag ts : neat ts -> neat (TClose tag :: ts)
| ne_nl ts : neat ts -> neat (TNl :: ts)
| ne_text tag w s ts : keeps tag -> xname tag -> Forall attr_ok w -> Forall txt_char s -> neat ts ->
    neat (TOpen tag w :: TText s :: TClose tag :: ts).
Lemma neat_app a b : neat a -> neat b -> neat (a ++ b).
Proof. intros H B. induction H; cbn [app]; try (constructor; assumption); exact B. Qed.
Lemma content_close a x ks t r : content a x ks -> a = TClose t :: r -> False.
Proof. destruct 1; discriminate. Qed.
Lemma neat_split a x ks : content a x ks -> forall r, neat (a ++ r) -> neat a /\ neat r.
Proof.
  induction 1 as [|s t ts x ks R _ IH|ts x ks _ IH|tag w a rest x ks A _ IH|tag w a body bx bks rest x ks A CB IHB _ IH]; intros r H; cbn [app] in H.
  - split; [constructor | exact H].
  - inversion H.
  - inversion H; subst. destruct (IH r) as [N1 N2]; [assumption|]. split; [constructor|]; assumption.
  - inversion H; subst. destruct (IH r) as [N1 N2]; [assumption|]. split; [constructor|]; assumption.
  - rewrite <- app_assoc in H. cbn [app] in H. inversion H as [|? ? ? K XN O N| | | |? ? s ts K XN O T N E1]; subst.
    + destruct (IHB _ N) as [N1 N2]. inversion N2 as [| | |? ? N3| |]; subst. destruct (IH r N3) as [N4 N5]. split; [|exact N5].
      apply ne_open; try assumption. apply neat_app; [exact N1 | constructor; exact N4].
    + destruct CB as [|s0 t0 ts0 x0 k0 R0 C0| | |]; cbn [app] in *; try discriminate. injection H1 as -> E.
      destruct ts0 as [|t1 ts1]; [|cbn [app] in E; injection E as E3 _; subst t1; exfalso; exact (content_close _ _ _ _ _ C0 eq_refl)].
      cbn [app] in E. injection E as E; subst ts. destruct (IH r N) as [N4 N5]. split; [|exact N5]. cbn [app]. apply ne_text; assumption.
Qed.

(** Two readings that differ only in white space between elements; empty stays empty, and it
    begins with the same character. *)
Definition starts (x x' : str) : Prop := match x with [] => x' = [] | c :: _ => exists r, x' = c :: r end.
Lemma starts_breaks t t' : breaks t -> blank t' -> starts t t' -> breaks t'.
Proof. intros (w & -> & _) B (r & ->). exists r. inversion B. auto. Qed.
Inductive alike : elem -> elem -> Prop :=
| al_keep tag a x : keeps tag -> alike (Elem tag a x []) (Elem tag a x [])
| al_elem tag a x x' ks ks' : ~ keeps tag -> blank x' -> starts x x' -> kids_alike ks ks' -> alike (Elem tag a x ks) (Elem tag a x' ks')
with kids_alike : list kid -> list kid -> Prop :=
| ka_nil : kids_alike [] []
| ka_cons e e' t t' ks ks' : alike e e' -> blank t' -> kids_alike ks ks' -> starts t t' -> kids_alike ((e, t) :: ks) ((e', t') :: ks').

Lemma writes_app a b : forall s, writes (a ++ b) s -> exists s1 s2, s = s1 ++ s2 /\ writes a s1 /\ writes b s2.
Proof.
  induction a as [|t a IH]; intros s H; cbn [app] in H; [exists [], s; split; [reflexivity | split; [constructor | exact H]]|].
  inversion H as [|w ts s0 F H'|tag at_ w ts s0 F H'|t0 ts s0 T H']; subst; destruct (IH _ H') as (s1 & s2 & -> & W1 & W2).
  - exists (10 :: w ++ s1), s2. split; [cbn [app]; rewrite <- app_assoc; reflexivity|]. split; [constructor; assumption | exact W2].
  - exists ([60] ++ tag ++ flat_map show_attr at_ ++ w ++ [47; 62] ++ s1), s2. split; [repeat (progress (cbn [app]; rewrite <- ?app_assoc)); reflexivity|].
    split; [constructor; assumption | exact W2].
  - exists (show t ++ s1), s2. split; [rewrite <- app_assoc; reflexivity|]. split; [constructor; assumption | exact W2].
Qed.
Lemma blanks_content w : Forall (fun c => c = 32 \/ c = 9) w -> blank w /\ forall s x ks, xcontent s x ks -> xcontent (w ++ s) (w ++ x) ks.
Proof.
  induction 1 as [|c w C _ [B IH]]; [split; [constructor | auto]|]. split.
  - constructor; [destruct C as [-> | ->]; reflexivity | exact B].
  - intros s x ks X. cbn [app]. apply xc_char; try (unfold xml_char; lia). apply IH. exact X.
Qed.
Lemma tabs_spaces w : Forall (fun c => c = 32 \/ c = 9) w -> spaces w.
Proof. intros H. eapply Forall_impl; [|exact H]. intros c. unfold xml_space. lia. Qed.
Lemma blank_app a b : blank a -> blank b -> blank (a ++ b).
Proof. intros A B. apply Forall_app. auto. Qed.

Theorem content_written ts x ks : content ts x ks -> neat ts -> forall s, writes ts s ->
  exists x' ks', xcontent s x' ks' /\ blank x' /\ starts x x' /\ kids_alike ks ks'.
Proof.
  induction 1 as [|s0 t ts x ks R _ IH|ts x ks _ IH|tag w a rest x ks A _ IH|tag w a body bx bks rest x ks A CB IHB _ IH]; intros N s W.
  - inversion W; subst. exists [], []. split; [constructor|]. split; [constructor|]. split; [reflexivity | constructor].
  - inversion N.
  - inversion N; subst. inversion W as [|w ts' s1 F W'|tag at_ w ts' s1 F W'|t0 ts' s1 T W']; subst; [|destruct T].
    destruct (IH ltac:(assumption) _ W') as (x' & ks' & X & B & E & K). destruct (blanks_content w F) as [BW XW].
    exists (10 :: w ++ x'), ks'. split; [apply xc_char; try (unfold xml_char; lia); apply XW; exact X|]. split; [constructor; [reflexivity | apply blank_app; assumption]|].
    split; [eexists; reflexivity | exact K].
  - inversion N; subst. inversion W as [|w' ts' s1 F W'|tag' at_ w' ts' s1 F W'|t0 ts' s1 T W']; subst; [|destruct T].
    destruct (IH ltac:(assumption) _ W') as (x' & ks' & X & B & E & K). destruct (attrs_written w a A) as [XA ND]; [assumption|].
    exists [], ((Elem tag a [] [], x') :: ks'). split; [apply xc_void; try assumption; apply tabs_spaces; exact F|]. split; [constructor|]. split; [reflexivity|].
    constructor; [|exact B | exact K | exact E]. destruct (list_eq_dec N.eq_dec tag (utf8 "span")) as [->|N1]; [apply al_keep; left; reflexivity|].
    destruct (list_eq_dec N.eq_dec tag (utf8 "title")) as [->|N2]; [apply al_keep; right; reflexivity|].
    apply al_elem; [intros [X1|X1]; contradiction | constructor | reflexivity | constructor].
  - inversion W as [|w' ts' s1 F W'|tag' at_ w' ts' s1 F W'|t0 ts' s1 T W']; subst. clear T. apply writes_app in W' as (sb & s2 & -> & WB & W2).
    inversion W2 as [|w' ts' s3 F W'|tag' at_ w' ts' s3 F W'|t0 ts' s3 T W']; subst. clear T.
    assert (S : show (TOpen tag w) ++ sb ++ show (TClose tag) ++ s3 = [60] ++ tag ++ flat_map show_attr w ++ [] ++ [62] ++ sb ++ [60; 47] ++ tag ++ [] ++ [62] ++ s3)
      by (cbn [show]; repeat (progress (cbn [app]; rewrite <- ?app_assoc)); reflexivity).
    rewrite S. clear S.
    inversion N as [|? ? ? K XN O N0| | | |? ? s ts K XN O T N0 E1]; subst.
    + destruct (neat_split _ _ _ CB _ N0) as [N1 N2]. inversion N2 as [| | |? ? N3| |]; subst.
      destruct (IHB N1 _ WB) as (bx' & bks' & XB & BB & EB & KB). destruct (IH N3 _ W') as (x' & ks' & X & B & E & K').
      destruct (attrs_written w a A O) as [XA ND].
      exists [], ((Elem tag a bx' bks', x') :: ks'). split; [apply xc_elem; try assumption; constructor|]. split; [constructor|]. split; [reflexivity|].
      constructor; [|exact B | exact K' | exact E]. apply al_elem; assumption.
    + destruct CB as [|s0 t0 ts0 x0 k0 R0 C0| | |]; cbn [app] in *; try discriminate.
      match goal with E : TText _ :: _ = TText _ :: _ |- _ => injection E as E2 E3 end; subst. rename E3 into E2.
      destruct ts0 as [|t1 ts1]; [|cbn [app] in E2; injection E2 as E3 _; subst t1; exfalso; exact (content_close _ _ _ _ _ C0 eq_refl)].
      cbn [app] in E2. injection E2 as E2; subst ts. inversion C0; subst. rewrite app_nil_r.
      inversion WB as [| | |? ? s1 T1 W1]; subst. inversion W1; subst. cbn [show] in *. rewrite app_nil_r in *.
      destruct (IH N0 _ W') as (x' & ks' & X & B & E & K'). destruct (attrs_written w a A O) as [XA ND].
      assert (XS := reads_xcontent s0 t0 R0 T [] [] [] xc_nil). rewrite !app_nil_r in XS.
      exists [], ((Elem tag a t0 [], x') :: ks'). split; [apply (xc_elem tag (flat_map show_attr w) a [] s0 t0 [] [] s3 x' ks'); try assumption; constructor|]. split; [constructor|]. split; [reflexivity|].
      constructor; [|exact B | exact K' | exact E]. apply al_keep. exact K.
Qed.

(** ** What is shown stays *)

Lemma span_alike r sp k k' : span_shows r sp k -> kids_alike [k] [k'] -> span_shows r sp k'.
Proof.
  intros (a & -> & C) K. inversion K as [|e e' t t' ks ks' AL BT KS TT]; subst. inversion AL as [? ? ? KP|? ? ? ? ? ? NK]; subst.
  - exists a. cbn in TT. subst t'. auto.
  - exfalso. apply NK. left. reflexivity.
Qed.
Lemma spans_alike r sps ks : Forall2 (span_shows r) sps ks -> forall ks', kids_alike ks ks' -> Forall2 (span_shows r) sps ks'.
Proof.
  induction 1 as [|sp k sps ks S _ IH]; intros ks' K; inversion K; subst; constructor; [|apply IH; assumption].
  eapply span_alike; [exact S|]. constructor; [assumption | assumption | constructor | assumption].
Qed.
Lemma kids_alike_app a b : forall ks, kids_alike (a ++ b) ks -> exists a' b', ks = a' ++ b' /\ kids_alike a a' /\ kids_alike b b'.
Proof.
  induction a as [|k a IH]; intros ks H; cbn [app] in H; [exists [], ks; split; [reflexivity | split; [constructor | exact H]]|].
  inversion H as [|e e' t t' k1 k2 AL B K]; subst. destruct (IH _ K) as (a' & b' & -> & K1 & K2).
  exists ((e', t') :: a'), b'. split; [reflexivity|]. split; [constructor; assumption | exact K2].
Qed.
Ltac broken := match goal with B : breaks ?t, B' : blank ?t', S : starts ?t ?t' |- breaks ?t' => exact (starts_breaks _ _ B B' S) end.
Ltac nokeep := let X := fresh in intros [X|X]; revert X; unfold lvl_tag; try match goal with |- context [is_ordered ?l] => destruct (is_ordered l) end; discriminate.
Lemma lists_alike r :
  (forall l its e, list_shows r l its e -> forall e', alike e e' -> list_shows r l its e')
  /\ (forall its ks, items_show r its ks -> forall ks', kids_alike ks ks' -> items_show r its ks').
Proof.
  apply lists_mut.
  - intros l its x ks B _ IH e' A. inversion A as [? ? ? K|? ? ? x' ? ks' NK BX E K]; subst; try (exfalso; match goal with K : keeps _ |- _ => revert K end; nokeep). constructor; [broken | apply IH; exact K].
  - intros ks' K. inversion K; subst. constructor.
  - intros sps its x ks tail rest NS BX BT F _ IH ks' K. inversion K as [|? e' ? t' ? k' A B K' ST]; subst.
    inversion A as [? ? ? KP|? ? ? x' ? ks1 NK BX' E KK]; subst; try (exfalso; match goal with K : keeps _ |- _ => revert K end; nokeep).
    apply is_item; try assumption; try broken; [eapply spans_alike; eassumption | apply IH; exact K'].
  - intros sps l sub its x ks e tl tail rest BX BL BT F _ IHL _ IH ks' K. inversion K as [|? e' ? t' ? k' A B K' ST]; subst.
    inversion A as [? ? ? KP|? ? ? x' ? ks1 NK BX' E KK]; subst; try (exfalso; match goal with K : keeps _ |- _ => revert K end; nokeep).
    apply kids_alike_app in KK as (a' & b' & -> & K1 & K2). inversion K2 as [|? e2 ? t2 ? k2 A2 B2 K3 ST2]; subst. inversion K3; subst.
    apply is_item_sub; try assumption; try broken; [eapply spans_alike; eassumption | apply IHL; exact A2 | apply IH; exact K'].
  - intros l sub its x e tl tail rest BX BL BT _ IHL _ IH ks' K. inversion K as [|? e' ? t' ? k' A B K' ST]; subst.
    inversion A as [? ? ? KP|? ? ? x' ? ks1 NK BX' E K2]; subst; try (exfalso; match goal with K : keeps _ |- _ => revert K end; nokeep).
    inversion K2 as [|? e2 ? t2 ? k2 A2 B2 K3 ST2]; subst. inversion K3; subst.
    apply is_sub; try assumption; try broken; [apply IHL; exact A2 | apply IH; exact K'].
Qed.
Lemma shows_alike r q :
  (forall u e, shows r q u e -> forall e', alike e e' -> shows r q u e')
  /\ (forall y rows ks, rows_show r q y rows ks -> forall ks', kids_alike ks ks' -> rows_show r q y rows ks')
  /\ (forall y x ts ks, cells_show r q y x ts ks -> forall ks', kids_alike ks ks' -> cells_show r q y x ts ks')
  /\ (forall us ks, units_show r q us ks -> forall ks', kids_alike ks ks' -> units_show r q us ks').
Proof.
  apply all_shows_mut.
  - intros sps x ks B F e' A. inversion A as [? ? ? K|? ? ? x' ? ks' NK BX E K]; subst; try (exfalso; match goal with K : keeps _ |- _ => revert K end; nokeep). apply sw_par; [broken | eapply spans_alike; eassumption].
  - intros l its e L e' A. apply sw_list. eapply (proj1 (lists_alike r)); eassumption.
  - intros wid id rows x ks B _ IH e' A. inversion A as [? ? ? K|? ? ? x' ? ks' NK BX E K]; subst; try (exfalso; match goal with K : keeps _ |- _ => revert K end; nokeep). apply sw_table; [broken | apply IH; exact K].
  - intros y ks' K. inversion K; subst. constructor.
  - intros y row rows x ks tail rest BX BT _ IHC _ IH ks' K. inversion K as [|? e' ? t' ? k' A B K' ST]; subst.
    inversion A as [? ? ? KP|? ? ? x' ? ks1 NK BX' E K2]; subst; try (exfalso; match goal with K : keeps _ |- _ => revert K end; nokeep).
    apply rs_cons; try assumption; try broken; [apply IHC; exact K2 | apply IH; exact K'].
  - intros y x ks' K. inversion K; subst. constructor.
  - intros y x t ts ks O _ IH ks' K. apply cs_skip; [exact O | apply IH; exact K].
  - intros y x t ts a ks tail rest O CA _ IHU BT _ IH ks' K. inversion K as [|? e' ? t' ? k' A B K' ST]; subst.
    inversion A as [? ? ? KP|? ? ? x' ? ks1 NK BX' E K2]; subst.
    + apply cs_cell; try assumption; try broken; [apply IHU; constructor | apply IH; exact K'].
    + rewrite E in *. apply cs_cell; try assumption; try broken; [apply IHU; exact K2 | apply IH; exact K'].
  - intros ks' K. inversion K; subst. constructor.
  - intros u us e tail ks _ IHS BT _ IH ks' K. inversion K as [|? e' ? t' ? k' A B K' ST]; subst. apply us_cons; [apply IHS; exact A | exact (starts_breaks _ _ BT B ST) | apply IH; exact K'].
Qed.
