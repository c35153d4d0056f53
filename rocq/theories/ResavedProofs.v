(** What is not read of a docx document does not matter. *)
From Coq Require Import NArith ZArith List Bool String Lia.
From Verif Require Import PyStr PyStrFacts Xml Docx Disk SpecElem SpecDisk SpecResaved QueryProofs DocxTotal Prop_Elem.
Import ListNotations.
Local Open Scope string_scope.
Local Open Scope list_scope.
Local Open Scope N_scope.

Lemma f2_length {A B} {R : A -> B -> Prop} {l l'} : Forall2 R l l' -> List.length l = List.length l'.
Proof. induction 1; cbn [List.length]; congruence. Qed.
Lemma f2_impl {A B} (R Q : A -> B -> Prop) l l' : (forall a b, R a b -> Q a b) -> Forall2 R l l' -> Forall2 Q l l'.
Proof. intros H. induction 1; constructor; auto. Qed.

(** ** Queries *)

Lemma w_attr_valued a e o : w_attr a e = o <-> valued (utf8 a) (w_attrs e) o.
Proof. exact (C94_attribute (utf8 a) (Elem [] (w_attrs e) [] []) o). Qed.
Definition reads (t : string) : bool := existsb (String.eqb t) elements_read.
Definition reads_attr (t : string) : bool := existsb (String.eqb t) attributes_read.
Lemma eqb_in t l : existsb (String.eqb t) l = true -> In t l.
Proof. intros H. apply existsb_exists in H as (x & I & E). apply String.eqb_eq in E. subst x. exact I. Qed.
Lemma rs_tag e e' : resaved e e' -> w_tag e = w_tag e'.
Proof. intros []. reflexivity. Qed.
Lemma rs_attr e e' a : resaved e e' -> reads_attr a = true -> w_attr a e = w_attr a e'.
Proof.
  intros [i i' t b b' x x' ks ks' _ SR _ _] RA. apply w_attr_valued. cbn [w_attrs]. apply SR; [apply eqb_in; exact RA|].
  apply (w_attr_valued a (W i' t b' x' ks')). reflexivity.
Qed.
Lemma rs_is_tag t e e' : resaved e e' -> is_tag t e = is_tag t e'.
Proof. intros R. unfold is_tag. rewrite (rs_tag _ _ R). reflexivity. Qed.
Lemma unread_tag t e : unread e -> reads t = true -> is_tag t e = false.
Proof. intros [U _] R. apply is_tag_false. intros E. apply U. rewrite E. apply in_map, eqb_in, R. Qed.
Lemma rs_filter t tag ks ks' : reads t = true -> resaved_in tag ks ks' -> Forall2 resaved (filter (is_tag t) ks) (filter (is_tag t) ks').
Proof.
  intros R. induction 1 as [|tag k k' ks ks' K _ IH|tag k k' ks ks' U U' _ IH|tag k ks ks' _ U _ IH|tag k ks ks' _ U _ IH]; cbn [filter].
  - constructor.
  - rewrite (rs_is_tag t _ _ K). destruct (is_tag t k'); [constructor; assumption | exact IH].
  - rewrite !unread_tag by assumption. exact IH.
  - rewrite unread_tag by assumption. exact IH.
  - rewrite unread_tag by assumption. exact IH.
Qed.
Lemma rs_kids e e' : resaved e e' -> resaved_in (w_tag e) (w_kids e) (w_kids e').
Proof. intros []. assumption. Qed.
Lemma rs_children t e e' : reads t = true -> resaved e e' -> Forall2 resaved (w_children t e) (w_children t e').
Proof. intros R H. exact (rs_filter t _ _ _ R (rs_kids _ _ H)). Qed.
Lemma rs_path ts : forall e e', forallb reads ts = true -> resaved e e' -> Forall2 resaved (w_path ts e) (w_path ts e').
Proof.
  induction ts as [|t ts IH]; intros e e' F H; cbn [w_path]; [constructor; [exact H | constructor]|].
  cbn [forallb] in F. apply andb_true_iff in F as [RT F]. pose proof (rs_children t _ _ RT H) as C. induction C as [|k k' l l' K _ IHC]; cbn [flat_map]; [constructor|].
  apply Forall2_app; [apply IH; assumption | exact IHC].
Qed.
Lemma rs_first ts e e' : forallb reads ts = true -> resaved e e' ->
  match elem_first ts e, elem_first ts e' with Some x, Some x' => resaved x x' | None, None => True | _, _ => False end.
Proof. intros F H. unfold elem_first. destruct (rs_path ts _ _ F H); cbn [first]; [exact Logic.I | assumption]. Qed.
Lemma rs_attr_first ts a e e' : forallb reads ts && reads_attr a = true -> resaved e e' -> attr_first ts a e = attr_first ts a e'.
Proof.
  intros F H. apply andb_true_iff in F as [F RA]. unfold attr_first. f_equal. induction (rs_path ts _ _ F H) as [|x x' l l' X _ IH]; cbn [flat_map]; [reflexivity|].
  rewrite IH, (rs_attr _ _ a X RA). reflexivity.
Qed.
Lemma rs_attr_req ts a e e' : forallb reads ts && reads_attr a = true -> resaved e e' -> attr_first_req ts a e = attr_first_req ts a e'.
Proof. intros F H. unfold attr_first_req. rewrite (rs_attr_first ts a e e' F H). reflexivity. Qed.
Ltac q H := match type of H with resaved ?e ?e' =>
  match goal with
  | |- context [attr_first ?ts ?a e] => rewrite (rs_attr_first ts a e e' eq_refl H)
  | |- context [attr_first_req ?ts ?a e] => rewrite (rs_attr_req ts a e e' eq_refl H)
  end end.

Scheme rs_ind2 := Induction for resaved Sort Prop with ri_ind2 := Induction for resaved_in Sort Prop.
Lemma no_tables e : Forall (fun x => w_tag x <> utf8 "w:tbl") (below e) -> filter (is_tag "w:tbl") (below e) = [].
Proof. induction 1 as [|x l N _ IH]; cbn [filter]; [reflexivity|]. rewrite (proj2 (is_tag_false _ _) N). exact IH. Qed.
Lemma rs_tables : forall e e', resaved e e' -> Forall2 resaved (w_all "w:tbl" e) (w_all "w:tbl" e').
Proof.
  set (deep := fun ks => filter (is_tag "w:tbl") (flat_map (fun k => k :: below k) ks)).
  assert (DC : forall k ks, deep (k :: ks) = (if is_tag "w:tbl" k then [k] else []) ++ w_all "w:tbl" k ++ deep ks).
  { intros k ks. unfold deep, w_all. cbn [flat_map]. cbn [app filter]. rewrite filter_app. destruct (is_tag "w:tbl" k); reflexivity. }
  assert (NT : forall k, unread k -> (if is_tag "w:tbl" k then [k] else []) ++ w_all "w:tbl" k = []).
  { intros k U. rewrite (unread_tag "w:tbl" k U eq_refl). unfold w_all. cbn [app]. apply no_tables, U. }
  refine (rs_ind2 (fun e e' _ => Forall2 resaved (w_all "w:tbl" e) (w_all "w:tbl" e')) (fun t ks ks' _ => Forall2 resaved (deep ks) (deep ks')) _ _ _ _ _ _).
  - intros i i' t a a' x x' ks ks' _ _ _ _ IH. exact IH.
  - intros t. constructor.
  - intros t k k' ks ks' K IHK _ IH. rewrite !DC. rewrite (rs_is_tag _ _ _ K). apply Forall2_app; [destruct (is_tag "w:tbl" k'); repeat constructor; exact K|]. apply Forall2_app; assumption.
  - intros t k k' ks ks' U U' _ IH. rewrite !DC, !app_assoc, (NT k U), (NT k' U'). exact IH.
  - intros t k ks ks' _ U _ IH. rewrite DC, app_assoc, (NT k U). exact IH.
  - intros t k ks ks' _ U _ IH. rewrite DC, app_assoc, (NT k U). exact IH.
Qed.

(** ** Results *)

Definition dr {A B} (R : A -> B -> Prop) (r : dres A) (r' : dres B) : Prop :=
  match r, r' with DOk a, DOk b => R a b | DErr e, DErr e' => e = e' | DFuel, DFuel => True | _, _ => False end.
Lemma dr_eq {A} (r r' : dres A) : dr eq r r' <-> r = r'.
Proof. destruct r, r'; cbn [dr]; split; intros H; try contradiction; try discriminate; try congruence; auto. Qed.
Lemma dr_bind {A B A' B'} (R : A -> A' -> Prop) (Q : B -> B' -> Prop) m m' f f' :
  dr R m m' -> (forall a a', m = DOk a -> m' = DOk a' -> R a a' -> dr Q (f a) (f' a')) -> dr Q (dbind m f) (dbind m' f').
Proof. destruct m, m'; cbn [dr dbind]; intros H F; try contradiction; auto. Qed.
Lemma dr_same {A B B'} (Q : B -> B' -> Prop) (m : dres A) f f' : (forall a, m = DOk a -> dr Q (f a) (f' a)) -> dr Q (dbind m f) (dbind m f').
Proof. intros H. destruct m; cbn [dbind]; [apply H; reflexivity | reflexivity | exact Logic.I]. Qed.
Lemma bind_ext {A B} (m : dres A) (f f' : A -> dres B) : (forall a, f a = f' a) -> dbind m f = dbind m f'.
Proof. intros H. destruct m; cbn [dbind]; auto. Qed.
Lemma dmap_rel {A A' B} (R : A -> A' -> Prop) (f : A -> dres B) f' l l' : Forall2 R l l' -> (forall a a', R a a' -> f a = f' a') -> dmap f l = dmap f' l'.
Proof. intros H F. induction H as [|a a' l l' X _ IH]; cbn [dmap]; [reflexivity|]. rewrite (F _ _ X), IH. reflexivity. Qed.

(** ** Styles *)

Lemma rs_bprop t e e' : reads t = true -> resaved e e' -> bprop_val e t = bprop_val e' t.
Proof.
  intros R H. unfold bprop_val. assert (F : forallb reads [t] = true) by (cbn [forallb]; rewrite R; reflexivity). pose proof (rs_first [t] _ _ F H) as X.
  destruct (elem_first [t] e) as [x|], (elem_first [t] e') as [x'|]; try contradiction; [|reflexivity]. q X. reflexivity.
Qed.
Lemma rs_from_rpr e e' : resaved e e' -> from_rpr e = from_rpr e'.
Proof.
  intros H. unfold from_rpr. rewrite (rs_bprop "w:b" _ _ eq_refl H), (rs_bprop "w:i" _ _ eq_refl H), (rs_bprop "w:strike" _ _ eq_refl H).
  rewrite (rs_attr_first ["w:color"] "w:val" _ _ eq_refl H), (rs_attr_first ["w:vertAlign"] "w:val" _ _ eq_refl H).
  assert (U : u_val e = u_val e'); [|rewrite U; reflexivity]. unfold u_val. pose proof (rs_first ["w:u"] _ _ eq_refl H) as X.
  destruct (elem_first ["w:u"] e) as [x|], (elem_first ["w:u"] e') as [x'|]; try contradiction; [|reflexivity]. q X. reflexivity.
Qed.
Lemma rs_from_rpr_elem ts e e' : forallb reads ts = true -> resaved e e' -> from_rpr_elem (elem_first ts e) = from_rpr_elem (elem_first ts e').
Proof.
  intros F H. pose proof (rs_first ts _ _ F H) as X. destruct (elem_first ts e), (elem_first ts e'); try contradiction; [|reflexivity].
  cbn [from_rpr_elem]. rewrite (rs_from_rpr _ _ X). reflexivity.
Qed.
Lemma rs_styles_of ty e e' : resaved e e' -> Forall2 resaved (styles_of ty e) (styles_of ty e').
Proof.
  intros H. unfold styles_of. induction (rs_children "w:style" _ _ eq_refl H) as [|s s' l l' X _ IH]; cbn [filter]; [constructor|].
  rewrite (rs_attr _ _ "w:type" X eq_refl). destruct (match w_attr "w:type" s' with Some t => seqb t (utf8 ty) | None => false end); [constructor; assumption | exact IH].
Qed.
Lemma rs_alias ty e e' : resaved e e' -> alias_dct ty e = alias_dct ty e'.
Proof.
  intros H. unfold alias_dct. generalize (@nil (str * str)). induction (rs_styles_of ty _ _ H) as [|s s' l l' X _ IH]; intros d; cbn [alias_loop]; [reflexivity|].
  rewrite (rs_attr_req [] "w:styleId" _ _ eq_refl X), (rs_attr_first ["w:aliases"] "w:val" _ _ eq_refl X). apply bind_ext. intros n. apply IH.
Qed.
Lemma rs_find {A} (R : A -> A -> Prop) f l l' : Forall2 R l l' -> (forall a a', R a a' -> f a = f a') ->
  match find f l, find f l' with Some x, Some x' => R x x' | None, None => True | _, _ => False end.
Proof.
  intros H F. induction H as [|a a' l l' X _ IH]; cbn [find]; [exact Logic.I|]. rewrite (F _ _ X). destruct (f a'); [exact X | exact IH].
Qed.
Lemma rs_chain ty e e' : resaved e e' -> forall fuel id, style_chain fuel ty e id = style_chain fuel ty e' id.
Proof.
  intros H. induction fuel as [|f IH]; intros id; cbn [style_chain]; [reflexivity|].
  assert (X := rs_find resaved (fun s => match w_attr "w:styleId" s with Some i => seqb i id | None => false end) _ _ (rs_styles_of ty _ _ H)
    (fun a a' X => f_equal (fun o => match o with Some i => seqb i id | None => false end) (rs_attr a a' "w:styleId" X eq_refl))). cbv beta in X.
  match goal with |- context [find ?g (styles_of ty e)] => destruct (find g (styles_of ty e)) as [s|], (find g (styles_of ty e')) as [s'|] end; try contradiction; [|reflexivity].
  rewrite (rs_from_rpr_elem ["w:rPr"] _ _ eq_refl X). apply bind_ext. intros r. q X. destruct (attr_first ["w:basedOn"] "w:val" s') as [b|]; [rewrite IH; reflexivity | reflexivity].
Qed.
Lemma rs_get_style ty e e' id : resaved e e' -> get_style ty e id = get_style ty e' id.
Proof.
  intros H. unfold get_style. rewrite (rs_alias ty _ _ H). apply bind_ext. intros d. destruct (d_get id d) as [n|]; [|reflexivity].
  unfold style_fuel. rewrite (f2_length (rs_styles_of ty _ _ H)). apply rs_chain, H.
Qed.
Lemma rs_styles_ok e e' : resaved e e' -> styles_ok e = styles_ok e'.
Proof. intros H. unfold styles_ok. rewrite !(rs_alias _ _ _ H). reflexivity. Qed.
Lemma rs_r_rpr y y' r r' : resaved y y' -> resaved r r' -> extract_r_rpr y r = extract_r_rpr y' r'.
Proof.
  intros Y H. unfold extract_r_rpr. pose proof (rs_first ["w:rPr"] _ _ eq_refl H) as X.
  destruct (elem_first ["w:rPr"] r) as [x|], (elem_first ["w:rPr"] r') as [x'|]; try contradiction; [|reflexivity].
  rewrite (rs_from_rpr _ _ X). apply bind_ext. intros p. q X. destruct (attr_first ["w:rStyle"] "w:val" x') as [id|]; [|reflexivity].
  rewrite (rs_get_style "character" _ _ id Y). reflexivity.
Qed.

(** ** Numbering *)

Lemma rs_lvl n e e' : resaved e e' -> parse_lvl n e = parse_lvl n e'.
Proof.
  intros H. unfold parse_lvl. rewrite (rs_attr_req [] "w:ilvl" _ _ eq_refl H), (rs_attr_req ["w:numFmt"] "w:val" _ _ eq_refl H), (rs_attr_req ["w:lvlText"] "w:val" _ _ eq_refl H).
  reflexivity.
Qed.
Lemma rs_numbering e e' : resaved e e' -> parse_numbering e = parse_numbering e'.
Proof.
  intros H. unfold parse_numbering.
  assert (A : forall d, parse_abs (w_children "w:abstractNum" e) d = parse_abs (w_children "w:abstractNum" e') d).
  { induction (rs_children "w:abstractNum" _ _ eq_refl H) as [|x x' l l' X _ IH]; intros d; cbn [parse_abs]; [reflexivity|].
    rewrite (rs_attr_req [] "w:abstractNumId" _ _ eq_refl X). apply bind_ext. intros s. apply bind_ext. intros n.
    rewrite (dmap_rel resaved (parse_lvl n) (parse_lvl n) _ _ (rs_children "w:lvl" _ _ eq_refl X) (rs_lvl n)). apply bind_ext. intros ls. apply IH. }
  assert (B : forall d, parse_nums (w_children "w:num" e) d = parse_nums (w_children "w:num" e') d).
  { induction (rs_children "w:num" _ _ eq_refl H) as [|x x' l l' X _ IH]; intros d; cbn [parse_nums]; [reflexivity|].
    rewrite (rs_attr_first [] "w:numId" _ _ eq_refl X), (rs_attr_first ["w:abstractNumId"] "w:val" _ _ eq_refl X).
    apply bind_ext. intros n. apply bind_ext. intros a. apply IH. }
  rewrite A. apply bind_ext. intros a. rewrite B. reflexivity.
Qed.

(** ** The grid *)

Lemma both_in {A B} (R : A -> B -> Prop) l l' : Forall2 R l l' -> Forall2 (fun a b => R a b /\ In a l /\ In b l') l l'.
Proof.
  induction 1 as [|a b l l' H _ IH]; constructor; [split; [exact H | split; left; reflexivity]|].
  refine (f2_impl _ _ _ _ _ IH). intros x y (X & I & J). split; [exact X|]. split; right; assumption.
Qed.
Section Grid.
Variable Q : welem -> welem -> Prop.
Hypothesis QR : forall t t', Q t t' -> resaved t t'.
Definition gl (g g' : gcell) : Prop :=
  Q (g_cell g) (g_cell g') /\ g_top g = g_top g' /\ g_bottom g = g_bottom g' /\ g_left g = g_left g' /\ g_right g = g_right g'.
Lemma gl_nth h h' i : Forall2 gl h h' -> match nth_error h i, nth_error h' i with Some g, Some g' => gl g g' | None, None => True | _, _ => False end.
Proof. intros H. revert i. induction H as [|g g' h h' G _ IH]; intros [|i]; cbn [nth_error]; auto. apply IH. Qed.
Lemma gl_update b h h' : Forall2 gl h h' -> forall i, Forall2 gl (update i (set_bottom b) h) (update i (set_bottom b) h').
Proof.
  induction 1 as [|g g' h h' G H IH]; intros [|i]; cbn [update]; constructor; auto. destruct G as (A & B & C & D & E). repeat split; auto.
Qed.
Lemma rs_span t t' : resaved t t' -> tc_grid_span t = tc_grid_span t'.
Proof. intros H. unfold tc_grid_span. q H. reflexivity. Qed.
Lemma rs_merge t t' : resaved t t' -> cell_vertical_merge t = cell_vertical_merge t'.
Proof.
  intros H. unfold cell_vertical_merge. pose proof (rs_first ["w:tcPr"; "w:vMerge"] _ _ eq_refl H) as X.
  destruct (elem_first ["w:tcPr"; "w:vMerge"] t) as [x|], (elem_first ["w:tcPr"; "w:vMerge"] t') as [x'|]; try contradiction; [|reflexivity]. q X. reflexivity.
Qed.
Definition hrel {A} (p p' : heap * A) : Prop := Forall2 gl (fst p) (fst p') /\ snd p = snd p'.
Lemma rs_grid_row row above tcs tcs' : Forall2 Q tcs tcs' -> forall col h h' acc, Forall2 gl h h' ->
  dr hrel (grid_row row above tcs col h acc) (grid_row row above tcs' col h' acc).
Proof.
  induction 1 as [|t t' l l' T _ IH]; intros col h h' acc H; cbn [grid_row]; [split; [exact H | reflexivity]|].
  rewrite (rs_span _ _ (QR _ _ T)), (rs_merge _ _ (QR _ _ T)). apply dr_same. intros sp _. apply dr_same. intros vm _.
  apply (dr_bind hrel).
  - assert (NEW : hrel (h ++ [mkG t row row col (col + sp - 1)%Z], List.length h) (h' ++ [mkG t' row row col (col + sp - 1)%Z], List.length h')).
    { split; cbn [fst snd]; [apply Forall2_app; [exact H | constructor; [split; [exact T | split; [reflexivity | split; [reflexivity | split; reflexivity]]] | constructor]] | exact (f2_length H)]. }
    destruct vm; try exact NEW. destruct above as [a|]; [|reflexivity]. apply dr_same. intros i _. pose proof (gl_nth _ _ i H) as G.
    destruct (nth_error h i) as [g|], (nth_error h' i) as [g'|]; try contradiction; [|reflexivity].
    unfold g_colspan. destruct G as (_ & _ & _ & -> & ->). destruct (sp =? g_right g' - g_left g' + 1)%Z; [|reflexivity].
    split; [apply gl_update; exact H | reflexivity].
  - intros [h1 i] [h1' i'] _ _ [H1 E]. cbn [fst snd] in *. subst i'. apply IH. exact H1.
Qed.
Definition rows_rel : list (list (nat * gcell)) -> list (list (nat * gcell)) -> Prop := Forall2 (Forall2 (fun a b => gl (snd a) (snd b))).
Lemma rs_grid_rows trs trs' : Forall2 (fun t t' => Forall2 Q (w_children "w:tc" t) (w_children "w:tc" t')) trs trs' ->
  forall row h h' m, Forall2 gl h h' -> dr hrel (grid_rows row trs h m) (grid_rows row trs' h' m).
Proof.
  induction 1 as [|t t' l l' T _ IH]; intros row h h' m H; cbn [grid_rows]; [split; [exact H | reflexivity]|].
  apply (dr_bind hrel); [apply rs_grid_row; assumption|]. intros [h1 c] [h1' c'] _ _ [H1 E]. cbn [fst snd] in *. subst c'. apply IH. exact H1.
Qed.
Lemma rs_grid tbl tbl' : Forall2 (fun t t' => Forall2 Q (w_children "w:tc" t) (w_children "w:tc" t')) (w_children "w:tr" tbl) (w_children "w:tr" tbl') ->
  dr rows_rel (grid tbl) (grid tbl').
Proof.
  intros T. unfold grid. apply (dr_bind hrel); [apply rs_grid_rows; [exact T | constructor]|]. intros [h m] [h' m'] _ _ [H E]. cbn [fst snd] in *. subst m'. cbn [dr].
  unfold rows_rel. induction m as [|r m IH]; cbn [map]; constructor; [|exact IH]. induction r as [|i r IHr]; cbn [flat_map]; [constructor|].
  apply Forall2_app; [|exact IHr]. pose proof (gl_nth _ _ i H) as G. destruct (nth_error h i), (nth_error h' i); try contradiction; [constructor; [exact G | constructor] | constructor].
Qed.

(** ** A table *)

Lemma rs_fill t t' : resaved t t' -> cell_fill t = cell_fill t'.
Proof. intros H. unfold cell_fill. q H. reflexivity. Qed.
Lemma rs_cell_tag t t' : resaved t t' -> cell_tag t = cell_tag t'.
Proof. intros H. unfold cell_tag. rewrite (rs_fill _ _ H). reflexivity. Qed.
Variables pa pa' : list welem -> seen -> dres (list hunit * seen).
Hypothesis QP : forall t t' s, Q t t' -> pa (w_kids t) s = pa' (w_kids t') s.
Lemma rs_row row row' : Forall2 (fun a b => gl (snd a) (snd b)) row row' -> forall s, parse_row pa row s = parse_row pa' row' s.
Proof.
  induction 1 as [|[i g] [i' g'] l l' G _ IH]; intros s; cbn [parse_row]; [reflexivity|]. cbn [snd] in G. destruct G as (C & T & B & L & R).
  rewrite (QP _ _ s C). apply bind_ext. intros [us s1]. rewrite IH. apply bind_ext. intros [cells s2].
  unfold g_colspan, g_rowspan. rewrite (rs_fill _ _ (QR _ _ C)), (rs_cell_tag _ _ (QR _ _ C)), T, B, L, R. reflexivity.
Qed.
Lemma rs_rows m m' : rows_rel m m' -> forall s, parse_rows pa m s = parse_rows pa' m' s.
Proof.
  induction 1 as [|r r' m m' R _ IH]; intros s; cbn [parse_rows]; [reflexivity|]. rewrite (rs_row _ _ R). apply bind_ext. intros [c s1]. rewrite IH. reflexivity.
Qed.
Lemma rs_table tbl tbl' s : w_id tbl = w_id tbl' ->
  Forall2 (fun t t' => Forall2 Q (w_children "w:tc" t) (w_children "w:tc" t')) (w_children "w:tr" tbl) (w_children "w:tr" tbl') ->
  parse_table pa tbl s = parse_table pa' tbl' s.
Proof.
  intros E T. unfold parse_table. rewrite E. destruct (mem_id (w_id tbl') s); [reflexivity|]. apply dr_eq. apply (dr_bind rows_rel); [apply rs_grid; exact T|].
  intros m m' _ _ R. rewrite (rs_rows _ _ R). apply dr_eq. reflexivity.
Qed.
End Grid.

(** ** The document *)

Section Doc.
Variables d d' : docx.
Hypothesis NUM : dx_num d = dx_num d'.
Hypothesis STY : resaved (dx_styles d) (dx_styles d').

Lemma rs_select t ks ks' : resaved_in t ks ks' -> dr (Forall2 resaved) (select_runs ks) (select_runs ks').
Proof.
  assert (U : forall k l, unread k -> select_runs (k :: l) = select_runs l).
  { intros k l U. cbn [select_runs]. rewrite (unread_tag "w:r" k U eq_refl), (unread_tag "w:hyperlink" k U eq_refl), (unread_tag "w:fldSimple" k U eq_refl). reflexivity. }
  induction 1 as [t|t k k' ks ks' K _ IH|t k k' ks ks' K K' _ IH|t k ks ks' _ K _ IH|t k ks ks' _ K _ IH].
  - constructor.
  - cbn [select_runs]. rewrite !(rs_is_tag _ _ _ K). destruct (is_tag "w:r" k').
    + apply (dr_bind (Forall2 resaved)); [exact IH|]. intros l l' _ _ L. constructor; assumption.
    + destruct (is_tag "w:hyperlink" k' || is_tag "w:fldSimple" k')%bool; [|exact IH].
      apply (dr_bind resaved).
      * unfold elem_first_req. pose proof (rs_first ["w:r"] _ _ eq_refl K) as X. destruct (elem_first ["w:r"] k), (elem_first ["w:r"] k'); try contradiction; [exact X | reflexivity].
      * intros x x' _ _ X. apply (dr_bind (Forall2 resaved)); [exact IH|]. intros l l' _ _ L. constructor; assumption.
  - rewrite !U by assumption. exact IH.
  - rewrite !U by assumption. exact IH.
  - rewrite (U k) by assumption. exact IH.
Qed.
Lemma rs_run r r' : resaved r r' -> run_spans d r = run_spans d' r'.
Proof.
  intros H. unfold run_spans. pose proof (rs_first ["w:t"] _ _ eq_refl H) as X. destruct (elem_first ["w:t"] r) as [x|] eqn:E, (elem_first ["w:t"] r') as [x'|]; try contradiction; [|reflexivity].
  assert (T : w_text x = w_text x').
  { apply first_child_iff in E as (l1 & l2 & _ & T & _). destruct X as [i i' t a a' y y' ks ks' _ _ TX _]. exact (TX T). }
  rewrite T, (rs_r_rpr _ _ _ _ STY H). reflexivity.
Qed.
Lemma rs_spans p p' : resaved p p' -> parse_spans d p = parse_spans d' p'.
Proof.
  intros H. unfold parse_spans. apply dr_eq. apply (dr_bind (Forall2 resaved)); [exact (rs_select _ _ _ (rs_kids _ _ H))|].
  intros rs rs' _ _ R. rewrite (dmap_rel resaved (run_spans d) (run_spans d') rs rs' R rs_run). apply dr_eq. reflexivity.
Qed.
Lemma rs_is_list p p' : resaved p p' -> is_list_p d p = is_list_p d' p'.
Proof. intros H. unfold is_list_p, p_num. rewrite NUM. q H. reflexivity. Qed.
Lemma rs_num_id p p' : resaved p p' -> p_num_id p = p_num_id p'.
Proof. intros H. unfold p_num_id. q H. reflexivity. Qed.
Lemma rs_ilvl p p' : resaved p p' -> p_ilvl p = p_ilvl p'.
Proof. intros H. unfold p_ilvl. q H. reflexivity. Qed.
Lemma rs_p_style z : p_style d z = p_style d' z.
Proof. unfold p_style. rewrite NUM. reflexivity. Qed.
Lemma rs_head p p' : resaved p p' -> list_head d p = list_head d' p'.
Proof.
  intros H. unfold list_head. rewrite (rs_is_tag "w:p" _ _ H), (rs_num_id _ _ H), (rs_ilvl _ _ H). destruct (is_tag "w:p" p'); [|reflexivity]. cbn [negb].
  apply bind_ext. intros n. rewrite rs_p_style. reflexivity.
Qed.

(** What is left in a cell. *)
Definition left_ (st st' : list welem) : Prop := Forall2 (fun k k' => resaved k k' \/ unread k /\ unread k') st st'.
Lemma rs_left ks ks' : resaved_in (utf8 "w:tc") ks ks' -> left_ ks ks'.
Proof.
  intros H. remember (utf8 "w:tc") as t eqn:E. induction H as [t|t k k' ks ks' K _ IH|t k k' ks ks' U U' _ IH|t k ks ks' N _ _ _|t k ks ks' N _ _ _]; try contradiction; subst t; constructor; auto.
  all: exact (IH eq_refl).
Qed.
Definition left_of {A} (x x' : A * list welem) : Prop := fst x = fst x' /\ left_ (snd x) (snd x').
Lemma rs_list_elems : forall fuel st st' abs ilvl, left_ st st' -> dr left_of (list_elems d fuel st abs ilvl) (list_elems d' fuel st' abs ilvl).
Proof.
  induction fuel as [|f IH]; intros st st' abs ilvl H; cbn [list_elems]; [exact Logic.I|].
  assert (STOP : dr (@left_of (list litem)) (DOk ([], st)) (DOk ([], st'))) by (split; [reflexivity | exact H]).
  destruct H as [|p p' l l' [P|[U U']] L]; [exact STOP| |rewrite (unread_tag "w:p" p U eq_refl), (unread_tag "w:p" p' U' eq_refl); exact STOP].
  rewrite (rs_is_tag "w:p" _ _ P). destruct (is_tag "w:p" p'); [|exact STOP]. cbn [negb]. rewrite (rs_is_list _ _ P), (rs_num_id _ _ P), (rs_ilvl _ _ P).
  apply dr_same. intros lp _. destruct lp; [|exact STOP]. cbn [negb]. apply dr_same. intros n _. rewrite rs_p_style. apply dr_same. intros [a ls] _.
  destruct (a =? abs)%Z; [|exact STOP]. cbn [negb]. apply dr_same. intros i _. destruct (ilvl <? i)%Z.
  - rewrite (rs_head _ _ P). apply dr_same. intros [[v a'] i'] _. apply (dr_bind left_of); [apply IH; constructor; [left; exact P | exact L]|].
    intros [sub st1] [sub' st1'] _ _ [E1 L1]. cbn [fst snd] in *. subst sub'. apply (dr_bind left_of); [apply IH; exact L1|].
    intros [more st2] [more' st2'] _ _ [E2 L2]. cbn [fst snd] in *. subst more'. split; [reflexivity | exact L2].
  - destruct (i <? ilvl)%Z; [exact STOP|]. rewrite (rs_spans _ _ P). apply dr_same. intros sp _. apply (dr_bind left_of); [apply IH; exact L|].
    intros [more st2] [more' st2'] _ _ [E2 L2]. cbn [fst snd] in *. subst more'. split; [reflexivity | exact L2].
Qed.
Lemma rs_parse_list p p' l l' : resaved p p' -> left_ l l' -> dr left_of (parse_list d (p :: l)) (parse_list d' (p' :: l')).
Proof.
  intros P L. cbn [parse_list]. rewrite (rs_head _ _ P). apply dr_same. intros [[v a] i] _.
  assert (LL : left_ (p :: l) (p' :: l')) by (constructor; [left; exact P | exact L]).
  replace (list_fuel (p' :: l')) with (list_fuel (p :: l)) by (unfold list_fuel; rewrite (f2_length LL); reflexivity).
  apply (dr_bind left_of); [apply rs_list_elems; exact LL|]. intros [it st] [it' st'] _ _ [E1 L1]. cbn [fst snd] in *. subst it'. split; [reflexivity | exact L1].
Qed.
Definition in_both (tbl tbl' c c' : welem) : Prop :=
  (resaved c c' /\ left_ (w_kids c) (w_kids c')) /\ In c (cells_of tbl) /\ In c' (cells_of tbl').
Lemma in_both_res tbl tbl' c c' : in_both tbl tbl' c c' -> resaved c c'.
Proof. intros [[H _] _]. exact H. Qed.
Lemma rs_cells tbl tbl' : resaved tbl tbl' ->
  Forall2 (fun t t' => Forall2 (in_both tbl tbl') (w_children "w:tc" t) (w_children "w:tc" t'))
    (w_children "w:tr" tbl) (w_children "w:tr" tbl').
Proof.
  intros H. pose proof (both_in _ _ _ (rs_children "w:tr" _ _ eq_refl H)) as F. eapply f2_impl; [|exact F]. cbv beta. intros t t' (T & I & I').
  pose proof (both_in _ _ _ (rs_children "w:tc" _ _ eq_refl T)) as G. eapply f2_impl; [|exact G]. cbv beta. intros c c' (C & J & J'). split.
  - split; [exact C|]. pose proof (rs_kids _ _ C) as K. unfold w_children in J. apply filter_In in J as [_ TG]. apply is_tag_iff in TG. rewrite TG in K. apply rs_left, K.
  - unfold cells_of. split; apply in_flat_map; eauto.
Qed.
Lemma rs_id tbl tbl' : resaved tbl tbl' -> is_tag "w:tbl" tbl = true -> w_id tbl = w_id tbl'.
Proof. intros [i i' t a a' x x' ks ks' I _ _ _] T. apply is_tag_iff in T. exact (I T). Qed.
Lemma rs_any : forall f f' st st' s, left_ st st' -> (any_fuel st <= f)%nat -> (any_fuel st' <= f')%nat -> parse_any d f st s = parse_any d' f' st' s.
Proof.
  induction f as [|f IH]; intros [|f'] st st' s H L L'; [unfold any_fuel in L; lia | unfold any_fuel in L; lia | unfold any_fuel in L'; lia|].
  cbn [parse_any]. destruct H as [|p p' l l' X H]; [reflexivity|]. rewrite any_fuel_cons in L, L'. pose proof (wsize_pos p) as P1. pose proof (wsize_pos p') as P2.
  destruct X as [P|[U U']].
  - rewrite !(rs_is_tag _ _ _ P). destruct (is_tag "w:tbl" p') eqn:TB.
    + rewrite (rs_table (in_both p p') (in_both_res p p') (parse_any d f) (parse_any d' f')) with (tbl' := p').
      * apply bind_ext. intros [t s1]. rewrite (IH f' l l' s1 H) by lia. reflexivity.
      * intros t t' s0 ((_ & LK) & I & I'). apply IH; [exact LK| |]; rewrite <- wsize_kids; [apply cells_size in I | apply cells_size in I']; unfold any_fuel in *; lia.
      * apply rs_id; [exact P|]. rewrite (rs_is_tag _ _ _ P). exact TB.
      * apply rs_cells, P.
    + destruct (is_tag "w:p" p') eqn:TG; [|apply IH; [exact H | lia | lia]]. rewrite (rs_is_list _ _ P).
      destruct (is_list_p d' p') as [lp| |] eqn:LP; [|reflexivity|reflexivity]. cbn [dbind]. destruct lp.
      * apply dr_eq. apply (dr_bind left_of); [apply rs_parse_list; assumption|]. intros [u st1] [u' st1'] PL PL' [E L1]. cbn [fst snd] in *. subst u'.
        assert (TG1 : is_tag "w:p" p = true) by (rewrite (rs_is_tag _ _ _ P); exact TG). assert (LP1 : is_list_p d p = DOk true) by (rewrite (rs_is_list _ _ P); exact LP).
        destruct (parse_list_shorter _ _ _ _ _ PL (proj1 (seqb_eq _ _) TG1) LP1) as (ps & E1). cbn [app] in E1. injection E1 as E1.
        destruct (parse_list_shorter _ _ _ _ _ PL' (proj1 (seqb_eq _ _) TG) LP) as (ps' & E2). cbn [app] in E2. injection E2 as E2.
        rewrite E1, any_fuel_app in L. rewrite E2, any_fuel_app in L'. rewrite (IH f' st1 st1' s L1) by lia. apply dr_eq. reflexivity.
      * unfold parse_paragraph. rewrite (rs_spans _ _ P). apply bind_ext. intros u. rewrite (IH f' l l' s H) by lia. reflexivity.
  - rewrite (unread_tag "w:tbl" p U eq_refl), (unread_tag "w:tbl" p' U' eq_refl), (unread_tag "w:p" p U eq_refl), (unread_tag "w:p" p' U' eq_refl). apply IH; [exact H | lia | lia].
Qed.
Lemma rs_top t t' s : resaved t t' -> is_tag "w:tbl" t = true ->
  parse_table (parse_any d (any_fuel (w_kids t))) t s = parse_table (parse_any d' (any_fuel (w_kids t'))) t' s.
Proof.
  intros T TB. apply (rs_table (in_both t t') (in_both_res t t')); [|apply rs_id; assumption | apply rs_cells, T].
  intros c c' s0 ((_ & LK) & I & I'). apply rs_any; [exact LK| |]; rewrite <- !wsize_kids; [apply cells_size in I | apply cells_size in I']; lia.
Qed.
Definition tables_like : list welem -> list welem -> Prop := Forall2 (fun t t' => resaved t t' /\ is_tag "w:tbl" t = true).
Lemma rs_parse_tables ts ts' : tables_like ts ts' -> forall s, parse_tables d ts s = parse_tables d' ts' s.
Proof.
  induction 1 as [|t t' l l' [T TB] _ IH]; intros s; cbn [parse_tables]; [reflexivity|]. rewrite (rs_top _ _ s T TB). apply bind_ext. intros [u s1]. rewrite IH. reflexivity.
Qed.
Hypothesis BODY : resaved (dx_body d) (dx_body d').
Lemma rs_all : tables_like (w_all "w:tbl" (dx_body d)) (w_all "w:tbl" (dx_body d')).
Proof.
  eapply f2_impl; [|exact (both_in _ _ _ (rs_tables _ _ BODY))]. cbv beta. intros t t' (T & I & _). split; [exact T|]. unfold w_all in I. apply filter_In in I. tauto.
Qed.
Lemma rs_parse_docx : parse_docx d = parse_docx d'.
Proof. unfold parse_docx. rewrite (rs_parse_tables _ _ rs_all). reflexivity. Qed.
End Doc.
