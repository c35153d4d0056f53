(** Properties C74, C75 and C76: what the style sheet makes of the document. *)
From Coq Require Import NArith ZArith List Bool String Lia.
From Coq Require Import ZifyBool ZifyN ZifyNat.
From Verif Require Import PyStr PyStrFacts Xml Json Docx Render Css SpecText SpecFmt SpecHtml SpecDocx SpecXml SpecCss CssRead CssProofs.
From Verif Require Import XmlProofs XmlNeat HtmlProofs TablesOnce Prop_List Prop_Docx Prop_Xml DocxParts CssCascade CssPlaces CssLists CssTags CssOrder.
Import ListNotations.
Local Open Scope string_scope.
Local Open Scope list_scope.
Local Open Scope N_scope.

(** ** What is known of the parts *)

Definition fill6 (f : option str) : Prop := fill_ok f /\ forall c, f = Some c -> List.length c = 6%nat.
Definition span_ok (sp : span) : Prop := forall p, sp_style sp = Some p -> colour_ok p.
Lemma docx_known d us : plain_colours d -> parse_docx d = DOk us -> Forall (holds span_ok fill6 (lists_of (dx_num d))) us.
Proof.
  intros PC PD. apply (docx_holds _ _ _ d (fun x => In x (nodes (dx_body d)))) with (us := us); auto.
  - intros e k. apply kid_node.
  - intros r l I R sp J p E. exact (run_colour d PC r l sp p I R J E).
  - intros tc I. split; [exact (cell_colour d PC tc I)|]. intros c. unfold cell_fill. destruct (attr_first _ _ _) as [f|]; [|discriminate].
    destruct (Nat.eqb_spec (List.length f) 6) as [L|]; cbn [andb]; [|discriminate]. destruct (negb _); [|discriminate]. intros [= <-]. exact L.
  - intros st l its st'. apply parse_list_levels.
Qed.
Section Known.
Variables (PS : span -> Prop) (PF : option str -> Prop) (PL : lvl -> list litem -> Prop).
Lemma holds_kid w id rows row t u : In row rows -> In t row -> In u (tc_elems t) -> holds PS PF PL (HTable w id rows) -> holds PS PF PL u.
Proof. intros R C U H v P. apply H. eapply pt_in; eassumption. Qed.
Lemma holds_span u sp : span_in u sp -> holds PS PF PL u -> PS sp.
Proof.
  induction 1 as [sps sp I|l its i sp I J|w id rows row t u sp R C U _ IH]; intros H.
  - exact (H _ (pt_self _) sp I).
  - exact (proj1 (H _ (pt_self _)) i sp I J).
  - apply IH. eapply holds_kid; eassumption.
Qed.
Lemma holds_cell u t : cell_in u t -> holds PS PF PL u -> PF (tc_fill t).
Proof.
  induction 1 as [w id rows row t R C|w id rows row t u t' R C U _ IH]; intros H.
  - exact (H _ (pt_self _) row t R C).
  - apply IH. eapply holds_kid; eassumption.
Qed.
Lemma holds_list u l its : list_in u l its -> holds PS PF PL u -> PL l its.
Proof.
  induction 1 as [l its|w id rows row t u l its R C U _ IH]; intros H.
  - exact (proj2 (H _ (pt_self _))).
  - apply IH. eapply holds_kid; eassumption.
Qed.
End Known.
Lemma fine_cell u t : cell_in u t -> fine u -> tc_tag t = utf8 "td" \/ tc_tag t = utf8 "th".
Proof.
  induction 1 as [w id rows row t R C|w id rows row t u t' R C U _ IH]; intros H.
  - exact (proj2 (H _ (pt_self _)) row t R C).
  - apply IH. intros v P. apply H. eapply pt_in; eassumption.
Qed.

(** ** C74 *)

(** The program writes the file [s] and the style sheet [css] for the docx document [d], read as
    [us]. *)
Definition generated (d : docx) (version fname title : str) (rev : option str) (us : list hunit) (s css : str) : Prop :=
  exists ts c, parse_docx d = DOk us /\ html_doc version fname title rev us = (ts, c) /\ writes ts s
    /\ lines_written (css_lines (dx_num d) c) css.
(** Texts and titles that can be written (as for C73), and colours of letters and digits. *)
Definition usual (d : docx) (version fname title : str) (rev : option str) : Prop :=
  (forall x t, has_node (dx_body d) x -> w_text x = Some t -> Forall (fun c => xml_char c /\ c <> 13) t)
  /\ Forall (fun h => plain h /\ Forall xml_char h) ([version; fname; title] ++ match rev with Some r => [r] | None => [] end)
  /\ plain_colours d.

Section C74.
Variables (d : docx) (version fname title : str) (rev : option str) (us : list hunit) (s css : str).
Hypothesis U : usual d version fname title rev.
Hypothesis G : generated d version fname title rev us s css.
Let SPAN sp := exists u, In u us /\ span_in u sp.
Let CELL t := exists u, In u us /\ cell_in u t.
Let LIST l its := exists u, In u us /\ list_in u l its.
Lemma node_has x : In x (nodes (dx_body d)) -> has_node (dx_body d) x.
Proof. unfold has_node. intros [<-|H]; auto. Qed.
Lemma generated_known : exists root c, xdocument s root /\ (forall root', xdocument s root' -> root' = root)
  /\ sheet_text css (sheet_rules (dx_num d) c) /\ caches_inv c
  /\ flow (emit_rules css_attrs (c_txt c)) (emit_rules fill_css (c_cell c)) SPAN CELL LIST root
  /\ Forall (holds span_ok fill6 (lists_of (dx_num d))) us
  /\ in_order (emit_rules css_attrs (c_txt c)) (emit_rules fill_css (c_cell c)) CELL (places root) (flat_map unit_parts us).
Proof.
  destruct U as (UT & UH & UC), G as (ts & c & PD & H & W & LW).
  assert (UT' : forall x t, In x (nodes (dx_body d)) -> w_text x = Some t -> Forall (fun c => xml_char c /\ c <> 13) t) by (intros x t I; exact (UT x t (node_has x I))).
  destruct (C73_file d us version fname title rev ts c s UT' UH PD H W) as (root & XD & UN & DS). exists root, c. split; [exact XD|]. split; [exact UN|].
  assert (HO := docx_known d us UC PD).
  assert (AS : asked fill6 colour_ok no_caches c) by (refine (doc_asked span_ok fill6 (lists_of (dx_num d)) colour_ok _ version fname title rev us ts c HO H); intros sp p S; exact (S p)).
  assert (CI := asked_inv _ _ _ _ AS none_inv). destruct (asked_keys _ _ _ _ AS) as [K1 K2]; [intros p n [] | intros f n []|].
  destruct (rules_ok c CI K1 (fun f n I => proj1 (K2 f n I))) as [R1 R2].
  split; [exact (sheet_read (dx_num d) c R1 R2 css LW)|]. split; [exact CI|]. split; [|split; [exact HO|]].
  2: { apply (document_order _ _ CELL version fname title rev us root DS). apply Forall_forall. intros u IU t I. split; [exists u; auto|].
    assert (F := parse_docx_fine _ _ PD UT'). rewrite Forall_forall in F. exact (fine_cell u t I (F u IU)). }
  apply (document_flow _ _ SPAN CELL LIST version fname title rev us root DS). apply Forall_forall. intros u IU. split; [|split].
  - intros sp I. exists u. auto.
  - intros t I. split; [exists u; auto|]. assert (F := parse_docx_fine _ _ PD UT'). rewrite Forall_forall in F. exact (fine_cell u t I (F u IU)).
  - intros l its I. exists u. auto.
Qed.

(** The style sheet can be read, in one way. *)
Theorem C74_sheet : exists sh, sheet_text css sh /\ forall sh', sheet_text css sh' -> sh' = sh.
Proof. destruct generated_known as (root & c & _ & _ & SX & _). eexists. split; [exact SX|]. intros sh' H. exact (sheet_one _ _ _ H SX). Qed.

Variables (root : elem) (sh : list rule).
Hypothesis XR : xdocument s root.
Hypothesis SR : sheet_text css sh.
Lemma read_known : exists c, sh = sheet_rules (dx_num d) c /\ caches_inv c
  /\ flow (emit_rules css_attrs (c_txt c)) (emit_rules fill_css (c_cell c)) SPAN CELL LIST root
  /\ Forall (holds span_ok fill6 (lists_of (dx_num d))) us
  /\ in_order (emit_rules css_attrs (c_txt c)) (emit_rules fill_css (c_cell c)) CELL (places root) (flat_map unit_parts us).
Proof.
  destruct generated_known as (root' & c & _ & UN & SX & CI & FL & HO & OR). exists c. split; [exact (sheet_one _ _ _ SR SX)|]. split; [exact CI|]. rewrite (UN _ XR). auto.
Qed.
Lemma list_spans l its : LIST l its -> forall i sp, In i its -> item_span i sp -> SPAN sp.
Proof.
  intros (u & IU & LI) i sp I J. exists u. split; [exact IU|]. clear IU. induction LI as [l its|w id rows row t u l its R C UU _ IH].
  - exact (si_list l its i sp I J).
  - exact (si_table w id rows row t u sp R C UU (IH I)).
Qed.

Lemma no_span_tag : ~ tag_in (utf8 "span") /\ ~ is_list_tag (utf8 "span").
Proof. split; [intros H; vm_compute in H; repeat (destruct H as [H|H]; [discriminate H|]); exact H | intros [H|H]; discriminate H]. Qed.
Lemma span_look c sp e tail i up : caches_inv c -> span_shows (emit_rules css_attrs (c_txt c)) sp (e, tail) ->
  e_tag e = utf8 "span" /\ e_text e = sp_text sp
  /\ forall k v, cascaded (sheet_rules (dx_num d) c) ((e, i) :: up) k v <-> exists f, sp_style sp = Some f /\ looks f k v.
Proof.
  intros CI (a & E & CF). injection E as -> _. split; [reflexivity|]. split; [reflexivity|]. intros k v.
  set (att := match sp_style sp with Some p => css_attrs p | None => [] end) in *.
  assert (L : (exists f, sp_style sp = Some f /\ looks f k v) <-> In (k, v) att).
  { unfold att. destruct (sp_style sp) as [f|]; [|split; [intros (f & [=] & _) | intros []]]. rewrite looks_iff. split; [intros (f' & [= <-] & H); exact H | eauto]. }
  rewrite L. clear L. destruct no_span_tag as [NT NL].
  destruct att as [|kv att'] eqn:EA; cbn [class_for] in CF.
  - subst a. split; [|intros []]. intros H. exfalso. revert H. apply (classless_rules (dx_num d) c); [intros w [] | left; exact NT | exact NL].
  - destruct CF as (n & -> & IN). rewrite <- EA in *. apply (class_wins (dx_num d) c CI _ _ _ n att).
    + apply in_or_app. left. exact IN.
    + unfold att. destruct (sp_style sp) as [f|]; [apply attrs_nodup | constructor].
    + intros w. cbn [e_attrs]. split; [intros [[= <-]|[]]; reflexivity | intros ->; left; reflexivity].
    + left. exact NT.
    + exact NL.
Qed.
Lemma cell_look c t e i up : caches_inv c -> fill6 (tc_fill t) -> e_tag e = tc_tag t -> e_tag e = utf8 "td" \/ e_tag e = utf8 "th" ->
  cell_attributes (emit_rules fill_css (c_cell c)) t (e_attrs e) ->
  forall v, cascaded (sheet_rules (dx_num d) c) ((e, i) :: up) (utf8 "background-color") v <-> exists f, tc_fill t = Some f /\ v = 35 :: f.
Proof.
  intros CI F6 ET T (cls & EA & CF) v.
  assert (NT : ~ In (utf8 "background-color") (flat_map (fun r => map fst (snd r)) fixed_rules)) by (intros H; vm_compute in H; repeat (destruct H as [H|H]; [discriminate H|]); exact H).
  assert (NL : ~ is_list_tag (e_tag e)) by (intros X; destruct T as [T|T]; rewrite T in X; destruct X as [X|X]; discriminate X).
  assert (CA : forall w, In (utf8 "class", w) (e_attrs e) <-> In (utf8 "class", w) cls).
  { intros w. rewrite EA, !in_app_iff. split; [|tauto]. intros [X|[X|X]]; [| |exact X].
    - destruct (1 <? _)%Z in X; [destruct X as [X|[]]; discriminate X | destruct X].
    - destruct (1 <? _)%Z in X; [destruct X as [X|[]]; discriminate X | destruct X]. }
  destruct (tc_fill t) as [f|]; cbn [class_for] in CF.
  - destruct F6 as [_ L6]. specialize (L6 f eq_refl).
    assert (EF : fill_css f = [(utf8 "background-color", 35 :: f)]).
    { unfold fill_css. destruct (smem f _) eqn:M; [|reflexivity]. apply smem_In in M. destruct M as [<-|[<-|[]]]; discriminate L6. }
    rewrite EF in CF. cbn [class_for] in CF. destruct CF as (n & -> & IN).
    rewrite (class_wins (dx_num d) c CI e i up n [(utf8 "background-color", 35 :: f)] (utf8 "background-color") v).
    + cbn [In]. split; [intros [[= <-]|[]]; eauto | intros (f' & [= <-] & ->); auto].
    + apply in_or_app. right. exact IN.
    + repeat constructor. intros [].
    + intros w. rewrite CA. cbn [In]. split; [intros [[= <-]|[]]; reflexivity | intros ->; left; reflexivity].
    + right. exact NT.
    + exact NL.
  - subst cls. split; [|intros (f & [=] & _)]. intros H. exfalso. revert H. apply (classless_rules (dx_num d) c); [intros w X; apply CA in X; destruct X | right; exact NT | exact NL].
Qed.
(** Every span looks as its run in the docx document has to. *)
Theorem C74_text e i up : place_in root ((e, i) :: up) -> e_tag e = utf8 "span" ->
  exists u sp, In u us /\ span_in u sp /\ e_text e = sp_text sp
    /\ forall k v, cascaded sh ((e, i) :: up) k v <-> exists f, sp_style sp = Some f /\ looks f k v.
Proof.
  intros P T. destruct read_known as (c & -> & CI & FL & HO & _). destruct (place_span _ _ _ _ _ list_spans _ _ _ _ FL P T) as (sp & tail & (u & IU & IS) & SW).
  exists u, sp. split; [exact IU|]. split; [exact IS|]. destruct (span_look c sp e tail i up CI SW) as (_ & A & B). auto.
Qed.
(** Every cell has the colour of its cell in the docx document. *)
Theorem C74_cell e i up : place_in root ((e, i) :: up) -> e_tag e = utf8 "td" \/ e_tag e = utf8 "th" ->
  exists u t, In u us /\ cell_in u t /\ e_tag e = tc_tag t
    /\ forall v, cascaded sh ((e, i) :: up) (utf8 "background-color") v <-> exists f, tc_fill t = Some f /\ v = 35 :: f.
Proof.
  intros P T. destruct read_known as (c & -> & CI & FL & HO & _). destruct (place_cell _ _ _ _ _ list_spans _ _ _ _ FL P T) as (t & (u & IU & IC) & ET & CA).
  exists u, t. split; [exact IU|]. split; [exact IC|]. split; [exact ET|]. rewrite Forall_forall in HO. exact (cell_look c t e i up CI (holds_cell _ _ _ _ _ IC (HO u IU)) ET T CA).
Qed.
(** And they stand in the same order: of the elements of the file, which [places] lists, the spans,
    cells and lists are those of the docx document one by one, and look so. *)
Theorem C74_order : (forall p, In p (places root) <-> place_in root p)
  /\ Forall2 (part_looks sh) (filter part_place (places root)) (flat_map unit_parts us).
Proof.
  split; [apply places_in|]. destruct read_known as (c & -> & CI & FL & HO & OR). unfold in_order in OR.
  eapply Forall2_impl; [|exact OR]. intros p x (e & i & up & -> & H). exists e, i, up. split; [reflexivity|]. destruct x as [sp|t|l its].
  - destruct H as (tail & H). exact (span_look c sp e tail i up CI H).
  - destruct H as ((u & IU & IC) & ET & CA). split; [exact ET|]. rewrite Forall_forall in HO. apply (cell_look c t e i up CI (holds_cell _ _ _ _ _ IC (HO u IU)) ET); [|exact CA].
    destruct U as (UT & _ & _), G as (ts & c0 & PD & _). assert (F := parse_docx_fine _ _ PD (fun x t I => UT x t (node_has x I))). rewrite Forall_forall in F. rewrite ET. exact (fine_cell u t IC (F u IU)).
  - inversion H; subst. reflexivity.
Qed.

(** ** C75 *)

Lemma path_nested l0 its0 ls its : list_path l0 its0 ls its -> (forall x, In x ls -> x = l0 \/ nested its0 x) /\ (forall x, nested its x -> nested its0 x) /\ ls <> [].
Proof.
  induction 1 as [|ls its l sub P IH I]; [split; [intros x [<-|[]]; auto | split; [auto | discriminate]]|]. destruct IH as (A & B & _).
  split; [|split; [|discriminate]].
  - intros x [<-|J]; [right; apply B; eapply ns_here; exact I | exact (A x J)].
  - intros x X. apply B. eapply ns_below; eassumption.
Qed.

(** The items of a list: the marker is that of a level of its numbering of the same kind
    (numbered or not), the deepest one that is not deeper than the list is nested in lists of that
    kind. *)
Hypothesis NU : forall n, dx_num d = Some n -> exists doc, parse_numbering doc = DOk n.
Theorem C75_markers e i up : place_in root ((e, i) :: up) -> list_elem e ->
  exists u l0 its0 l ls its n a lv, In u us /\ list_in u l0 its0 /\ list_path l0 its0 (l :: ls) its /\ (exists rules, list_shows rules l its e)
    /\ dx_num d = Some n /\ z_get a (n_abs n) = Some lv /\ (forall x, In x (l :: ls) -> In x lv)
    /\ forall v, cascaded sh ((e, i) :: up) (utf8 "list-style-type") v
         <-> exists x, deepest lv (lvl_tag l) (lists_with (lvl_tag l) (l :: ls)) x /\ marker x v.
Proof.
  intros P LE. destruct read_known as (c & -> & CI & FL & HO & _). destruct (place_list _ _ _ _ _ list_spans _ _ _ _ FL P LE) as (l0 & its0 & l & ls & its & (u & IU & IL) & LP & LS & LC).
  rewrite Forall_forall in HO. destruct (holds_list _ _ _ _ _ _ IL (HO u IU)) as (n & a & lv & D & GA & I0 & IN).
  assert (OF : forall x, In x (l :: ls) -> In x lv).
  { intros x X. destruct (proj1 (path_nested _ _ _ _ LP) x X) as [->|Y]; auto. }
  exists u, l0, its0, l, ls, its, n, a, lv. repeat (split; [solve [assumption | eauto]|]). intros v.
  destruct (NU n D) as (doc & PN). apply numbering_keyed in PN. rewrite D.
  assert (X : e_tag e = lvl_tag l /\ e_attrs e = [(utf8 "class", lvl_class l)]) by (inversion LS; subst; auto). destruct X as [TE AE].
  exact (list_wins n c CI PN a lv GA e i up l ls TE AE LC OF v).
Qed.
(** If the levels of the numberings are written in order, every list begins at level 0 and is
    nested level by level, and all of it is numbered or none: the marker is that of the level. *)
Theorem C75_own_level e i up :
  (forall n a lv, dx_num d = Some n -> z_get a (n_abs n) = Some lv -> forall j l, nth_error lv j = Some l -> v_ilvl l = Z.of_nat j) ->
  (forall u l its, In u us -> list_in u l its -> regular 0 l its /\ forall l', nested its l' -> lvl_tag l' = lvl_tag l) ->
  place_in root ((e, i) :: up) -> list_elem e ->
  exists u l0 its0 l ls its, In u us /\ list_in u l0 its0 /\ list_path l0 its0 (l :: ls) its /\ (exists rules, list_shows rules l its e)
    /\ forall v, cascaded sh ((e, i) :: up) (utf8 "list-style-type") v <-> marker l v.
Proof.
  intros ORD REG P LE. destruct (C75_markers e i up P LE) as (u & l0 & its0 & l & ls & its & n & a & lv & IU & IL & LP & LS & D & GA & IN & W).
  exists u, l0, its0, l, ls, its. repeat (split; [assumption|]). intros v. rewrite W. clear W.
  destruct (REG u l0 its0 IU IL) as [RG UNI].
  assert (PR : forall l ls its, list_path l0 its0 (l :: ls) its -> regular (Z.of_nat (List.length ls)) l its).
  { clear - RG. intros l ls its P. remember (l :: ls) as xs eqn:E. revert l ls E. induction P as [|xs its l' sub PP IH I]; intros l ls E; injection E as <- <-; [exact RG|].
    destruct xs as [|y ys]; [destruct (proj2 (proj2 (path_nested _ _ _ _ PP)) eq_refl)|].
    specialize (IH y ys eq_refl). inversion IH as [k l2 its2 _ DOWN]; subst. specialize (DOWN _ _ I). cbn [List.length].
    replace (Z.of_nat (S (List.length ys))) with (Z.of_nat (List.length ys) + 1)%Z by lia. exact DOWN. }
  assert (VL : v_ilvl l = Z.of_nat (List.length ls)) by (specialize (PR l ls its LP); inversion PR; assumption).
  assert (TG : forall x, In x (l :: ls) -> lvl_tag x = lvl_tag l0).
  { intros x X. destruct (proj1 (path_nested _ _ _ _ LP) x X) as [->|Y]; [reflexivity | exact (UNI _ Y)]. }
  assert (CNT : lists_with (lvl_tag l) (l :: ls) = S (List.length ls)).
  { rewrite (TG l (or_introl eq_refl)). change (S (List.length ls)) with (List.length (l :: ls)). revert TG. generalize (l :: ls). induction l1 as [|x r IH]; intros TG; [reflexivity|].
    cbn [lists_with List.length]. rewrite (TG x (or_introl eq_refl)), (proj2 (seqb_eq _ _) eq_refl). f_equal. apply IH. intros y Y. apply TG. right. exact Y. }
  rewrite CNT. clear CNT. specialize (ORD n a lv D GA).
  assert (IL' := IN l (or_introl eq_refl)). apply In_nth_error in IL' as (j & NJ). assert (J := ORD _ _ NJ).
  split.
  - intros (x & (jx & NX & _ & LT & MAX) & M). specialize (MAX j l NJ eq_refl). assert (JX := ORD _ _ NX). assert (jx = j) by lia. subst jx. rewrite NJ in NX. injection NX as <-. exact M.
  - intros M. exists l. split; [|exact M]. exists j. split; [exact NJ|]. split; [reflexivity|]. split; [lia|]. intros j' l' NJ' _ LT. assert (J' := ORD _ _ NJ'). lia.
Qed.

(** ** C76 *)

Lemma sheet_tags pl k v : ~ In k styled_props -> (cascaded sh pl k v <-> cascaded fixed_rules pl k v).
Proof. destruct read_known as (c & -> & _). apply fixed_cascaded. Qed.
Ltac unstyled := intros X; vm_compute in X; repeat (destruct X as [X|X]; [discriminate X|]); exact X.
(** A table in a cell (td) has less space below than one that is not; tables and cells have a border. *)
Theorem C76_table e i up v : e_tag e = utf8 "table" ->
  (cascaded sh ((e, i) :: up) (utf8 "margin-bottom") v
   <-> v = utf8 "1em" /\ (exists e' j, In (e', j) up /\ e_tag e' = utf8 "td")
       \/ v = utf8 "3em" /\ ~ (exists e' j, In (e', j) up /\ e_tag e' = utf8 "td")).
Proof.
  intros T. rewrite sheet_tags by unstyled. rewrite (table_bottom e i up v T).
  assert (B : in_td up = true <-> exists e' j, In (e', j) up /\ e_tag e' = utf8 "td").
  { unfold in_td. rewrite existsb_exists. split; [intros ([e' j] & I & E); apply seqb_eq in E; eauto | intros (e' & j & I & E); exists (e', j); split; [exact I | apply seqb_eq; exact E]]. }
  destruct (in_td up).
  - assert (Y : exists e' j, In (e', j) up /\ e_tag e' = utf8 "td") by (apply B; reflexivity). split; [intros ->; left; auto | intros [[-> _]|[_ N]]; [reflexivity | contradiction]].
  - assert (Y : ~ exists e' j, In (e', j) up /\ e_tag e' = utf8 "td") by (intros Y; apply B in Y; discriminate). split; [intros ->; right; auto | intros [[_ N]|[-> _]]; [contradiction | reflexivity]].
Qed.
Theorem C76_border e i up v : e_tag e = utf8 "table" \/ e_tag e = utf8 "td" \/ e_tag e = utf8 "th" ->
  (cascaded sh ((e, i) :: up) (utf8 "border") v <-> v = utf8 "1px solid black")
  /\ (cascaded sh ((e, i) :: up) (utf8 "border-collapse") v <-> v = utf8 "collapse").
Proof.
  intros T. rewrite !sheet_tags by unstyled. apply table_border. cbn [map In]. destruct T as [->|[->| ->]]; tauto.
Qed.
(** The first paragraph in its element has space above, the last one below. *)
Theorem C76_paragraph e i up v : e_tag e = utf8 "p" ->
  (cascaded sh ((e, i) :: up) (utf8 "margin-top") v <-> v = utf8 ".3em" /\ i = O \/ v = utf8 "0em" /\ i <> O)
  /\ (cascaded sh ((e, i) :: up) (utf8 "margin-bottom") v
       <-> v = utf8 ".3em" /\ match up with (parent, _) :: _ => S i = List.length (e_kids parent) | [] => True end).
Proof.
  intros T. rewrite !sheet_tags by unstyled. split; [|exact (paragraph_bottom e i up v T)]. rewrite (paragraph_top e i up v T).
  destruct (Nat.eqb_spec i 0) as [->|N]; [split; [intros ->; left; auto | intros [[-> _]|[_ N]]; [reflexivity | congruence]] | split; [intros ->; right; auto | intros [[_ N']|[-> _]]; [contradiction | reflexivity]]].
Qed.
End C74.
Print Assumptions C74_sheet.
Print Assumptions C74_text.
Print Assumptions C74_cell.
Print Assumptions C74_order.
Print Assumptions C75_markers.
Print Assumptions C75_own_level.
Print Assumptions C76_table.
Print Assumptions C76_border.
Print Assumptions C76_paragraph.

