(** Proofs about whole tables: the row loops of the extractors. *)
From Coq Require Import NArith ZArith List Bool String Lia ZifyBool ZifyN.
From Verif Require Import PyTables PyStr PyStrFacts Regex Regexes Xml Json Lint RowIter Helpers Extract
  RegexFacts MFacts SpecText SpecFields SpecLabel SpecHeader SpecNames SpecRows SpecTable RangeProofs LabelProofs HeaderProofs NameProofs CellRead ValidateProofs RowProofs.
Import ListNotations.
Local Open Scope list_scope.
Local Open Scope N_scope.
Local Open Scope m_scope.

(** ** Cells *)
Lemma extract_fields_some x row rt ct lt c :
  extract_fields x row = Some (rt, ct, lt, c)
  <-> exists k l, row_cells x row k c l /\ rt = to_text k /\ ct = to_text c /\ lt = to_text l.
Proof.
  unfold extract_fields, key_elem, content_elem, label_elem, row_cells, nth_child. split.
  - destruct (nth_error (children t_td row) (x_key x)) as [k|]; [|discriminate].
    destruct (nth_error (children t_td row) (x_content x)) as [c'|]; [|discriminate].
    destruct (nth_error (children t_td row) (x_label x)) as [td|]; [|discriminate].
    destruct (nth_error (children t_p td) 0) as [l|] eqn:El; [|discriminate].
    intros [= <- <- <- <-]. exists k, l. repeat split; eauto.
  - intros (k & l & (-> & -> & td & -> & ->) & -> & -> & ->). reflexivity.
Qed.
Lemma extract_fields_none x row :
  extract_fields x row = None <-> forall k c l, ~ row_cells x row k c l.
Proof.
  split.
  - intros H k c l R. assert (E : extract_fields x row = Some (to_text k, to_text c, to_text l, c))
      by (apply extract_fields_some; eauto 10). congruence.
  - intros H. destruct (extract_fields x row) as [[[[rt ct] lt] c]|] eqn:E; [|reflexivity].
    apply extract_fields_some in E as (k & l & R & _). destruct (H _ _ _ R).
Qed.
Lemma row_cells_fun x row k c l k' c' l' :
  row_cells x row k c l -> row_cells x row k' c' l' -> k = k' /\ c = c' /\ l = l'.
Proof. intros (A & B & td & C & D) (A' & B' & td' & C' & D'). repeat split; congruence. Qed.

Lemma value_cells_dec x row :
  (exists k c, key_elem x row = Some k /\ content_elem x row = Some c /\ value_cells x row k c)
  \/ (match key_elem x row, content_elem x row with Some _, Some _ => False | _, _ => True end
      /\ forall k c, ~ value_cells x row k c).
Proof.
  unfold key_elem, content_elem, value_cells, nth_child.
  destruct (nth_error (children t_td row) (x_key x)) as [k|], (nth_error (children t_td row) (x_content x)) as [c|].
  1: left; exists k, c; auto.
  all: right; split; [exact I|]; intros k' c' [? ?]; congruence.
Qed.

(** ** Special words *)
Lemma upper_char_ellipsis c : In 8230 (upper_char c) -> c = 8230.
Proof.
  intros H. destruct (upper_char_cases c) as [[H1 H2] | [[H1 H2] | [H1 H2]]].
  - rewrite H2 in H. destruct H as [H | []]. destruct ((97 <=? c) && (c <=? 122)) eqn:E; lia.
  - rewrite H2 in H. destruct H as [H | []]. exact H.
  - assert (S : forallb (fun p => negb (existsb (N.eqb 8230) (snd p))) upper_table = true) by (vm_compute; reflexivity).
    rewrite forallb_forall in S. specialize (S _ H2). cbn [snd] in S. apply negb_true_iff in S.
    rewrite <- not_true_iff_false in S. destruct S. apply existsb_exists. exists 8230. split; [exact H | reflexivity].
Qed.
Lemma upper_ellipsis t : upper t = lbl_ellipsis <-> t = lbl_ellipsis.
Proof.
  split; [|intros ->; reflexivity]. unfold lbl_ellipsis. destruct t as [|c t]; [discriminate|].
  unfold upper. cbn [flat_map]. fold (upper t). intros E.
  pose proof (upper_char_nonempty c) as NE. destruct (upper_char c) as [|d [|e l]] eqn:U; [congruence | |discriminate].
  cbn in E. injection E as -> E. assert (c = 8230) as -> by (apply upper_char_ellipsis; rewrite U; left; reflexivity).
  f_equal. destruct t as [|c' t]; [reflexivity|]. exfalso. cbn in E. pose proof (upper_char_nonempty c').
  destruct (upper_char c'); [congruence | discriminate].
Qed.

Lemma special_iff t : is_special_case t = true <-> special t.
Proof.
  unfold is_special_case, special. rewrite orb_true_iff, smem_In, startswith_app. cbn [In SPECIAL_CASE_SET].
  change RESERVED with lbl_reserved. change ELLIPSIS with lbl_ellipsis. change OBSOLETE with lbl_obsolete.
  split.
  - intros [[E | [E | [E | []]]] | E]; auto.
  - intros [E | [E | [E | E]]]; auto.
Qed.
Lemma special_not t : is_special_case t = false <-> ~ special t.
Proof. rewrite <- special_iff. destruct (is_special_case t); split; congruence. Qed.

Lemma handle_special_some content r f :
  handle_special_case content r = Some f
  <-> exists lbl, In lbl [lbl_reserved; lbl_obsolete; lbl_ellipsis] /\ upper content = lbl /\ f = mkSField lbl r None.
Proof.
  unfold handle_special_case, struct_field.
  change RESERVED with lbl_reserved. change ELLIPSIS with lbl_ellipsis. change OBSOLETE with lbl_obsolete. split.
  - destruct (seqb_spec content lbl_ellipsis) as [->|N1].
    + intros [= <-]. exists lbl_ellipsis. cbn. auto 10.
    + destruct (seqb_spec (upper content) lbl_reserved) as [E|N2].
      * intros [= <-]. exists lbl_reserved. cbn. auto.
      * destruct (seqb_spec (upper content) lbl_obsolete) as [E|N3]; [|discriminate].
        intros [= <-]. exists lbl_obsolete. cbn. auto.
  - intros (lbl & Hl & Hu & ->). destruct (seqb_spec content lbl_ellipsis) as [->|N1].
    + change (upper lbl_ellipsis) with lbl_ellipsis in Hu. subst. reflexivity.
    + rewrite Hu. destruct Hl as [<- | [<- | [<- | []]]]; [reflexivity | reflexivity |].
      apply (proj1 (upper_ellipsis content)) in Hu. contradiction.
Qed.
Lemma handle_special_none content r :
  handle_special_case content r = None <-> ~ In (upper content) [lbl_reserved; lbl_obsolete; lbl_ellipsis].
Proof.
  split.
  - intros H Hi. assert (exists f, handle_special_case content r = Some f) as (f & E); [|congruence].
    exists (mkSField (upper content) r None). apply handle_special_some. eauto.
  - intros H. destruct (handle_special_case content r) eqn:E; [|reflexivity].
    apply handle_special_some in E as (lbl & Hl & <- & _). contradiction.
Qed.

(** ** Reading ranges: what [Ok] results mean, and the lints recorded *)
Lemma parse_range_inv x t key f r f' evs : x_fig x <> [] ->
  parse_range x t key f = (Ok r, f', evs) ->
  f' = f /\ reads_numbers t r
  /\ (forall lo hi, r = RInt lo hi -> (hi < lo)%Z -> evs = [row_ev R1002 x key])
  /\ (forall s, r = RText s -> evs = [row_ev R1001 x key]).
Proof.
  intros Hx H. destruct (range_forms t) as [(hi & lo & T) | [(hi & T) | T]].
  - destruct (N.le_gt_cases (N.of_nat (List.length hi)) 4300) as [C1|C1], (N.le_gt_cases (N.of_nat (List.length lo)) 4300) as [C2|C2].
    2-4: exfalso; rewrite (parse_range_two_long x t hi lo) in H; [discriminate | exact T | unfold convertible; lia].
    rewrite (parse_range_two x Hx t hi lo) in H by assumption. injection H as <- <- <-.
    split; [reflexivity|]. split; [econstructor; eassumption|]. split.
    + intros a b [= <- <-] L. replace (dec_value hi <? dec_value lo) with true by lia. reflexivity.
    + discriminate.
  - destruct (N.le_gt_cases (N.of_nat (List.length hi)) 4300) as [C1|C1].
    2: exfalso; rewrite (parse_range_one_long x t hi) in H; [discriminate | exact T | unfold convertible; lia].
    rewrite (parse_range_one x t hi) in H by assumption. injection H as <- <- <-.
    split; [reflexivity|]. split; [econstructor; eassumption|]. split; [intros a b [= <- <-]; lia | discriminate].
  - rewrite (parse_range_text x Hx) in H by assumption. injection H as <- <- <-.
    split; [reflexivity|]. split; [constructor; exact T|]. split; [discriminate | intros s [= <-]; reflexivity].
Qed.

Lemma reads_numbers_ok x t r key f : x_fig x <> [] -> reads_numbers t r ->
  exists evs, parse_range x t key f = (Ok r, f, evs).
Proof.
  intros Hx [hi lo T C1 C2 | n T C | T]; eexists.
  - apply (parse_range_two x Hx t hi lo); assumption.
  - apply (parse_range_one x t n); assumption.
  - apply (parse_range_text x Hx); assumption.
Qed.

Lemma reads_numbers_fun t r r' : reads_numbers t r -> reads_numbers t r' -> r = r'.
Proof.
  intros H1 H2.
  set (x := mkX BitsTableExtractor (mkMeta None [65] None) 0 0 0).
  destruct (reads_numbers_ok x t r [] false) as (e1 & E1); [discriminate | exact H1|].
  destruct (reads_numbers_ok x t r' [] false) as (e2 & E2); [discriminate | exact H2|]. congruence.
Qed.

Lemma parse_dynamic_inv x t f r f' evs : x_fig x <> [] ->
  parse_dynamic_range x t f = (Ok r, f', evs) ->
  f' = f /\ reads_formula t r /\ (forall s, r = RText s -> evs = [row_ev R1001 x t])
  /\ (forall lo hi, r <> RInt lo hi).
Proof.
  intros Hx H.
  destruct (dyn_split (replace_char 32 [] (replace_char 10 [] t))) as [[a b]|] eqn:D.
  - assert (F : formula_range t a b) by (apply formula_range_split; exact D).
    rewrite (formula_range_ok x t a b f F) in H. injection H as <- <- <-.
    split; [reflexivity|]. split; [constructor; exact F|]. split; discriminate.
  - assert (F : forall a b, ~ formula_range t a b).
    { intros a b F. apply formula_range_split in F. congruence. }
    rewrite (formula_range_none x t f Hx F) in H. injection H as <- <- <-.
    split; [reflexivity|]. split; [constructor; exact F|]. split; [intros s [= <-]; reflexivity | discriminate].
Qed.

Lemma parse_label_flagless x t key f l f' evs : x_fig x <> [] ->
  parse_label x t key f = (Ok l, f', evs) -> f' = f
  /\ (exists raw lbl, label_source (x_content x =? x_label x)%nat t raw /\ normal raw lbl /\ l = lower lbl)
  /\ (forall f, parse_label x t key f = (Ok l, f, evs)).
Proof.
  intros Hx H.
  assert (FL : flagless (parse_label x t key)).
  { unfold parse_label. apply flagless_bind; [|intros a; apply flagless_bind].
    - destruct (Nat.eqb _ _).
      + unfold extract_label_same. destruct (re_match _ t); [|apply flagless_bind; [apply flagless_add_issue | intros; apply flagless_ret]].
        destruct (grp_nonempty _ _); [apply flagless_ret|]. destruct (grp_nonempty _ _).
        * destruct (smem _ _); apply flagless_ret.
        * apply flagless_bind; [apply flagless_add_issue | intros; apply flagless_ret].
      + unfold extract_label_separate. destruct (split1 58 t) as [h [u|]];
          (apply flagless_bind; [|intros; apply flagless_ret]); [|apply flagless_add_issue].
        destruct (has_char 32 h); [apply flagless_add_issue | apply flagless_ret].
    - unfold validate_label. destruct (label_invalid _); [apply flagless_add_issue | apply flagless_ret].
    - intros; apply flagless_ret. }
  destruct FL as (r & ev & E). rewrite E in H. injection H as -> -> ->.
  split; [reflexivity|]. split; [exact (label_inv _ _ _ _ _ _ _ Hx (E false)) | exact E].
Qed.

(** ** One row of a struct table *)
Inductive rowout := RField (f : sfield) | RNone | RStop (ex : extra).

Definition row_step (parse : meta -> elem -> M unit) (x : xctx) (dyn : bool) (y : yrow) : M rowout :=
  let row := y_row y in
  match extract_fields x row with
  | None =>
      let row_txt := lower (to_text row) in
      if startswith ELLIPSIS row_txt then ret (RField (struct_field (RInt (-1) (-1)) ELLIPSIS None))
      else if startswith (utf8 "note") row_txt then ret (RStop None)
      else match row_err_handler (ec_handler (x_cls x)) y with
           | (PStop, ex) => ret (RStop ex)
           | (PRaise, _) => throw EXPath
           | (PContinue, _) => ret RNone
           end
  | Some (range_txt, content_txt, label_txt, content) =>
      if is_special_case range_txt || is_special_case label_txt || is_special_case content_txt then
        if is_special_case range_txt then ret RNone
        else
          r <- parse_range x range_txt range_txt ;;
          ret (match handle_special_case content_txt r with Some f => RField f | None => RNone end)
      else
        r <- (if dyn then parse_dynamic_range x range_txt else parse_range x range_txt range_txt) ;;
        label <- parse_label x label_txt (range_row_key r) ;;
        extract_data_sub_table parse
          (mkMeta None (x_fig x ++ [95] ++ range_row_key r) (Some (x_fig x))) content ;;
        ret (RField (struct_field r label (content_extract_brief content_txt BRIEF_MAXLEN)))
  end.

Fixpoint run_rows (parse : meta -> elem -> M unit) (x : xctx) (rows : list yrow)
    (fin : option exn) (dyn : bool) (fields : list sfield) : M (list sfield * extra) :=
  match rows with
  | [] => match fin with None => ret (fields, None) | Some e => throw e end
  | y :: rest =>
      if contains_th (y_row y) then run_rows parse x rest fin (dyn || announces_list (y_row y)) fields
      else
        o <- row_step parse x dyn y ;;
        match o with
        | RField f => run_rows parse x rest fin dyn (fields ++ [f])
        | RNone => run_rows parse x rest fin dyn fields
        | RStop ex => ret (fields, ex)
        end
  end.

Lemma bind_k {A B} (m : M A) (k k' : A -> M B) f : (forall a g, k a g = k' a g) -> bind m k f = bind m k' f.
Proof. intros H. apply bind_ext; [reflexivity | exact H]. Qed.

Lemma wide_text_spec row : extract_possible_colspan row = wide_text row.
Proof.
  unfold extract_possible_colspan, find_colspan, wide_text. induction (e_kids row) as [|k ks IH]; [reflexivity|]. cbn [flat_map map filter].
  destruct (attr a_colspan (fst k)); cbn [map List.concat app]; [|exact IH].
  rewrite flat_map_app, IH. f_equal. induction (e_kids (fst k)) as [|q qs IHq]; [reflexivity|]. cbn [map flat_map List.concat]. rewrite IHq. reflexivity.
Qed.
Lemma announces_iff row : announces_list row = true <-> exists a b, wide_text row = a ++ utf8 "List" ++ b.
Proof.
  unfold announces_list. rewrite existsb_exists. split.
  - intros (n & _ & E). apply seqb_eq in E. exists (firstn n (wide_text row)), (skipn 4 (skipn n (wide_text row))).
    rewrite <- E, (firstn_skipn 4 (skipn n (wide_text row))). symmetry. apply firstn_skipn.
  - intros (a & b & E). exists (List.length a). rewrite E. split.
    + apply in_seq. rewrite !app_length. cbn. lia.
    + rewrite skipn_app, skipn_all, Nat.sub_diag. apply seqb_refl.
Qed.
Lemma list_header_spec row : is_list_header row = announces_list row.
Proof.
  apply Bool.eq_true_iff_eq. rewrite announces_iff. unfold is_list_header. rewrite wide_text_spec. apply contains_app.
Qed.

Lemma struct_loop_run parse x rows fin : forall dyn fields f,
  struct_loop parse x rows fin dyn fields f = run_rows parse x rows fin dyn fields f.
Proof.
  induction rows as [|y rest IH]; intros dyn fields f; [reflexivity|].
  cbn [struct_loop run_rows]. rewrite list_header_spec. destruct (contains_th (y_row y)); [apply IH|]. unfold row_step.
  destruct (extract_fields x (y_row y)) as [[[[rt ct] lt] c]|].
  - destruct (is_special_case rt || is_special_case lt || is_special_case ct).
    + destruct (is_special_case rt).
      * rewrite bind_ret. apply IH.
      * rewrite bind_assoc. apply bind_k. intros r g. rewrite bind_ret.
        destruct (handle_special_case ct r); apply IH.
    + rewrite bind_assoc. apply bind_k. intros r g. rewrite bind_assoc. apply bind_k. intros l g'.
      rewrite bind_assoc. apply bind_k. intros u g''. rewrite bind_ret. apply IH.
  - destruct (startswith ELLIPSIS _); [rewrite bind_ret; apply IH|].
    destruct (startswith (utf8 "note") _); [rewrite bind_ret; reflexivity|].
    destruct (row_err_handler (ec_handler (x_cls x)) y) as [[] ex]; [rewrite bind_ret; reflexivity | rewrite bind_ret; apply IH | reflexivity].
Qed.

Definition brief_of (t : str) : option str :=
  match content_extract_brief t BRIEF_MAXLEN with Some [] => None | b => b end.
Lemma struct_field_brief r l ct : struct_field r l (content_extract_brief ct BRIEF_MAXLEN) = mkSField l r (brief_of ct).
Proof. unfold struct_field, brief_of. destruct (content_extract_brief ct BRIEF_MAXLEN) as [[|]|]; reflexivity. Qed.

Lemma orb3_false a b c : a || b || c = false -> a = false /\ b = false /\ c = false.
Proof. destruct a, b, c; auto. Qed.

(** What the outcome of a row means, and the lints an odd range leaves behind. *)
Definition range_linted (x : xctx) (dyn : bool) (fld : sfield) (t : list event) : Prop :=
  (forall lo hi, sf_range fld = RInt lo hi -> (hi < lo)%Z -> exists key, In (row_ev R1002 x key) t)
  /\ (forall s, sf_range fld = RText s -> exists key, In (row_ev R1001 x key) t)
  /\ (dyn = false -> forall lo hi, sf_range fld <> RDyn lo hi)
  /\ (In (sf_label fld) [lbl_reserved; lbl_obsolete; lbl_ellipsis]
      \/ exists txt key evs, (forall f, parse_label x txt key f = (Ok (sf_label fld), f, evs)) /\ incl evs t).

Lemma row_step_inv parse x dyn y f o f' t : x_fig x <> [] ->
  row_step parse x dyn y f = (Ok o, f', t) ->
  match o with
  | RField fld => row_gives x dyn y (Some fld) /\ range_linted x dyn fld t
  | RNone => row_gives x dyn y None
  | RStop _ => row_ends x y
  end.
Proof.
  intros Hx. unfold row_step. destruct (extract_fields x (y_row y)) as [[[[rt ct] lt] c]|] eqn:EF.
  - apply extract_fields_some in EF as (k & l & RC & -> & -> & ->).
    destruct (is_special_case (to_text k) || is_special_case (to_text l) || is_special_case (to_text c)) eqn:SP.
    + destruct (is_special_case (to_text k)) eqn:SK.
      * intros [= <- <- <-]. apply special_iff in SK. eapply rg_special_range; eassumption.
      * intros H. apply bind_ok_inv in H as (r & f1 & t1 & t2 & E1 & E2 & ->).
        apply parse_range_inv in E1 as (-> & R & L2 & L1); [|exact Hx]. apply special_not in SK.
        cbn [orb] in SP. injection E2 as <- <- <-.
        destruct (handle_special_case (to_text c) r) as [fld|] eqn:HS.
        -- apply handle_special_some in HS as (lbl & Hl & Hu & ->). split; [eapply rg_special_content; eassumption|].
           split; [|split; [|split]]; cbn [sf_range].
           ++ intros lo hi E L. rewrite (L2 lo hi E L). eexists. left. reflexivity.
           ++ intros s E. rewrite (L1 s E). eexists. left. reflexivity.
           ++ intros _ lo hi E. subst. inversion R.
           ++ left. exact Hl.
        -- apply handle_special_none in HS. eapply rg_special_other; try eassumption.
           apply orb_true_iff in SP. rewrite !special_iff in SP. exact SP.
    + apply orb3_false in SP as (S1 & S2 & S3). apply special_not in S1, S2, S3.
      intros H. apply bind_ok_inv in H as (r & f1 & t1 & t2 & E1 & E2 & ->).
      apply bind_ok_inv in E2 as (lbl & f2 & t3 & t4 & E2 & E3 & ->).
      apply bind_ok_inv in E3 as ([] & f3 & t5 & t6 & E3 & E4 & ->).
      injection E4 as <- <- <-. rewrite struct_field_brief.
      apply parse_label_flagless in E2 as (-> & (raw & nl & LS & NL & ->) & RL'); [|exact Hx].
      assert (KB : kept_brief (to_text c) (brief_of (to_text c))) by (apply kept_iff; reflexivity).
      destruct dyn.
      * apply parse_dynamic_inv in E1 as (-> & R & L1 & NI); [|exact Hx].
        split; [eapply rg_regular; eassumption|]. split; [|split; [|split]]; cbn [sf_range].
        -- intros lo hi E. destruct (NI lo hi E).
        -- intros s E. rewrite (L1 s E). eexists. left. reflexivity.
        -- discriminate.
        -- right. do 3 eexists. split; [exact RL'|]. apply incl_appr, incl_appl, incl_refl.
      * apply parse_range_inv in E1 as (-> & R & L2 & L1); [|exact Hx].
        split; [eapply rg_regular; eassumption|]. split; [|split; [|split]]; cbn [sf_range].
        -- intros lo hi E L. rewrite (L2 lo hi E L). eexists. left. reflexivity.
        -- intros s E. rewrite (L1 s E). eexists. left. reflexivity.
        -- intros _ lo hi E. subst. inversion R.
        -- right. do 3 eexists. split; [exact RL'|]. apply incl_appr, incl_appl, incl_refl.
  - pose proof (proj1 (extract_fields_none x (y_row y)) EF) as NC.
    destruct (startswith ELLIPSIS (lower (to_text (y_row y)))) eqn:S1.
    + intros [= <- <- <-]. apply startswith_app in S1 as (u & S1). split; [eapply rg_ellipsis; eassumption|].
      split; [|split; [|split]]; cbn; [intros lo hi [= <- <-]; lia | discriminate | discriminate | auto].
    + assert (N1 : forall u, lower (to_text (y_row y)) <> lbl_ellipsis ++ u).
      { intros u E. assert (startswith ELLIPSIS (lower (to_text (y_row y))) = true) by (apply startswith_app; eauto). congruence. }
      destruct (startswith (utf8 "note") (lower (to_text (y_row y)))) eqn:S2.
      * intros [= <- <- <-]. apply startswith_app in S2 as (u & S2). eapply re_note; eassumption.
      * assert (N2 : forall u, lower (to_text (y_row y)) <> utf8 "note" ++ u).
        { intros u E. assert (startswith (utf8 "note") (lower (to_text (y_row y))) = true) by (apply startswith_app; eauto). congruence. }
        destruct (row_err_handler (ec_handler (x_cls x)) y) as [[] ex] eqn:HD.
        -- intros [= <- <- <-]. apply splits_iff in HD as (n & -> & HD). eapply re_split; eassumption.
        -- intros [= <- <- <-]. apply tolerated_iff in HD as (-> & HD). apply rg_tolerated; assumption.
        -- discriminate.
Qed.

Lemma range_linted_mono x d g t t' : incl t t' -> range_linted x d g t -> range_linted x d g t'.
Proof.
  intros I (A & B & C & D). split; [|split; [|split]]; [| |exact C|].
  - intros lo hi E L. destruct (A lo hi E L) as (key & K). exists key. apply I, K.
  - intros s E. destruct (B s E) as (key & K). exists key. apply I, K.
  - destruct D as [D | (txt & key & evs & D1 & D2)]; [left; exact D | right].
    exists txt, key, evs. split; [exact D1 | eapply incl_tran; eassumption].
Qed.

(** The loop. *)
Lemma run_rows_inv parse x rows fin : x_fig x <> [] -> forall dyn fields f fs ex f' t,
  run_rows parse x rows fin dyn fields f = (Ok (fs, ex), f', t) ->
  exists gs, fs = fields ++ gs /\ rows_give x dyn rows gs
    /\ Forall (fun g => exists d, range_linted x d g t) gs
    /\ ((forall y, In y rows -> children t_th (y_row y) <> [] -> announces_list (y_row y) = false) -> dyn = false ->
        Forall (fun g => forall lo hi, sf_range g <> RDyn lo hi) gs).
Proof.
  intros Hx. induction rows as [|y rest IH]; intros dyn fields f fs ex f' t H.
  - cbn in H. destruct fin; [discriminate|]. injection H as <- <- <- <-. exists []. rewrite app_nil_r.
    split; [reflexivity|]. split; [constructor|]. split; [constructor|]. intros; constructor.
  - cbn [run_rows] in H. destruct (contains_th (y_row y)) eqn:TH.
    + assert (HT : children t_th (y_row y) <> []) by (intros E; apply contains_th_children in E; congruence).
      destruct (IH _ _ _ _ _ _ _ H) as (gs & -> & G & L & D). exists gs. split; [reflexivity|].
      split; [apply tg_header; assumption|]. split; [exact L|].
      intros NL ->. apply D; [intros z Hz; apply NL; right; exact Hz|]. cbn. apply NL; [left; reflexivity | exact HT].
    + apply contains_th_children in TH.
      apply bind_ok_inv in H as (o & f1 & t1 & t2 & E1 & E2 & ->).
      apply row_step_inv in E1; [|exact Hx].
      destruct o as [fld| |ex'].
      * destruct E1 as [RG RL].
        destruct (IH _ _ _ _ _ _ _ E2) as (gs & -> & G & L & D). exists (fld :: gs). rewrite <- app_assoc.
        split; [reflexivity|]. split; [apply tg_field; assumption|].
        split.
        -- constructor; [exists dyn; eapply range_linted_mono, RL; apply incl_appl, incl_refl|].
           rewrite Forall_forall in *. intros g Hg. destruct (L g Hg) as (d & Ld). exists d. eapply range_linted_mono, Ld. apply incl_appr, incl_refl.
        -- intros NL ->. constructor; [destruct RL as (_ & _ & C & _); apply C; reflexivity|].
           apply D; [intros z Hz; apply NL; right; exact Hz | reflexivity].
      * destruct (IH _ _ _ _ _ _ _ E2) as (gs & -> & G & L & D). exists gs.
        split; [reflexivity|]. split; [apply tg_nothing; assumption|]. split.
        -- rewrite Forall_forall in *. intros g Hg. destruct (L g Hg) as (d & Ld). exists d. eapply range_linted_mono, Ld. apply incl_appr, incl_refl.
        -- intros NL ->. apply D; [intros z Hz; apply NL; right; exact Hz | reflexivity].
      * injection E2 as <- <- <- <-. exists []. rewrite app_nil_r. split; [reflexivity|].
        split; [apply tg_stop; assumption|]. split; [constructor|]. intros; constructor.
Qed.

(** The rows before a reached row, and the mode it is read in. *)
Lemma rows_give_app x A : forall dyn y B fs,
  rows_give x dyn (A ++ y :: B) fs ->
  children t_th (y_row y) = [] ->
  (forall z, In z A -> children t_th (y_row z) = [] -> ~ row_ends x z) ->
  ~ row_ends x y ->
  exists fa o fb, fs = fa ++ o ++ fb
    /\ rows_give x dyn A fa
    /\ row_gives x (dyn || existsb (fun z => contains_th (y_row z) && announces_list (y_row z)) A) y
         (match o with [] => None | g :: _ => Some g end)
    /\ (List.length o <= 1)%nat.
Proof.
  induction A as [|z A IH]; intros dyn y B fs H TH NE NY.
  - cbn [app existsb] in *. rewrite orb_false_r. inversion H; subst; try contradiction.
    + exists [], [f], fs0. split; [reflexivity|]. split; [constructor|]. split; [assumption | cbn; lia].
    + exists [], [], fs. split; [reflexivity|]. split; [constructor|]. split; [assumption | cbn; lia].
  - cbn [app existsb] in *.
    assert (NE' : forall w, In w A -> children t_th (y_row w) = [] -> ~ row_ends x w) by (intros w Hw; apply NE; right; exact Hw).
    inversion H; subst.
    + destruct (IH _ _ _ _ H5 TH NE' NY) as (fa & o & fb & -> & G1 & G2 & L). exists fa, o, fb.
      split; [reflexivity|]. split; [apply tg_header; assumption|]. split; [|exact L].
      replace (contains_th (y_row z)) with true by (symmetry; apply not_false_iff_true; rewrite contains_th_children; assumption).
      cbn. rewrite orb_assoc. exact G2.
    + destruct (IH _ _ _ _ H6 TH NE' NY) as (fa & o & fb & -> & G1 & G2 & L). exists (f :: fa), o, fb.
      split; [reflexivity|]. split; [apply tg_field; assumption|]. split; [|exact L].
      replace (contains_th (y_row z)) with false by (symmetry; apply contains_th_children; assumption). exact G2.
    + destruct (IH _ _ _ _ H6 TH NE' NY) as (fa & o & fb & -> & G1 & G2 & L). exists fa, o, fb.
      split; [reflexivity|]. split; [apply tg_nothing; assumption|]. split; [|exact L].
      replace (contains_th (y_row z)) with false by (symmetry; apply contains_th_children; assumption). exact G2.
    + exfalso. apply (NE z); [left; reflexivity | assumption | assumption].
Qed.

Lemma pair_loop_flagless x fs : forall ls prev, flagless (pair_loop x ls prev fs).
Proof.
  induction fs as [|g fs IH]; intros ls prev; [apply flagless_ret|]. cbn [pair_loop].
  apply flagless_bind; [destruct (_ && _); [apply flagless_add_issue | apply flagless_ret]|]. intros _.
  destruct (seqb _ _); [apply IH|]. destruct (field_range g) as [cur|]; [|apply IH].
  apply flagless_bind; [|intros _; apply IH].
  destruct prev as [p|]; [|apply flagless_ret]. destruct (high_int p), (low_int cur); try apply flagless_ret.
  destruct (Z.leb _ _); [apply flagless_add_issue|]. destruct (negb _); [apply flagless_add_issue | apply flagless_ret].
Qed.
Lemma validate_struct_flagless x fs : flagless (validate_struct x fs).
Proof.
  unfold validate_struct. destruct fs as [|g [|g2 fs]]; [apply flagless_ret | apply flagless_ret |].
  destruct (order_loop _ _); [apply flagless_add_issue | apply pair_loop_flagless].
Qed.

(** A whole struct table that was emitted. *)
Lemma struct_call_inv parse x k tbl f f' t : x_fig x <> [] ->
  struct_call parse x k tbl f = (Ok tt, f', t) ->
  exists fs tr tv tx,
    rows_give x false (fst (row_iter tbl)) fs
    /\ t = tr ++ tv ++ EvEnt (mkEntity (x_meta x) (BStruct k (match k with KBits => List.rev fs | KBytes => fs end))) :: tx
    /\ (exists f1, validate_struct x (match k with KBits => List.rev fs | KBytes => fs end) f1 = (Ok tt, f1, tv))
    /\ Forall (fun g => exists d, range_linted x d g tr) fs
    /\ ((forall y, In y (fst (row_iter tbl)) -> children t_th (y_row y) <> [] -> announces_list (y_row y) = false) ->
        Forall (fun g => forall lo hi, sf_range g <> RDyn lo hi) fs)
    /\ (exists ex f1, struct_loop parse x (fst (row_iter tbl)) (snd (row_iter tbl)) false [] f = (Ok (fs, ex), f1, tr)
        /\ (ex = None -> tx = [])
        /\ (forall m' tb, ex = Some (m', tb) -> parse m' tb f1 = (Ok tt, f', tx))).
Proof.
  intros Hx. unfold struct_call. destruct (row_iter tbl) as [rows fin]. cbn [fst snd]. intros H.
  apply bind_ok_inv in H as ([fs ex] & f1 & t1 & t2 & E1 & E2 & ->).
  pose proof E1 as E1'. rewrite struct_loop_run in E1. apply run_rows_inv in E1 as (gs & -> & G & L & D); [|exact Hx].
  cbn [app] in *. set (out := match k with KBits => List.rev gs | KBytes => gs end) in *.
  apply bind_ok_inv in E2 as ([] & f2 & t3 & t4 & E2 & E3 & ->).
  apply bind_ok_inv in E3 as ([] & f3 & t5 & t6 & E3 & E4 & ->). injection E3 as <- <-.
  assert (f2 = f1) as ->.
  { destruct (validate_struct_flagless x out) as (r & ev & E). rewrite E in E2. congruence. }
  exists gs, t1, t3, t6. split; [exact G|]. split; [reflexivity|]. split; [exists f1; exact E2|]. split; [exact L|].
  split; [intros NL; apply D; auto|]. exists ex, f1. split; [exact E1'|].
  destruct ex as [[m' tb]|].
  - split; [discriminate|]. intros m'' tb' [= <- <-]. exact E4.
  - injection E4 as <- <-. split; [reflexivity | discriminate].
Qed.

(** ** Value tables *)
Inductive vout := VField (f : vfield) | VNone | VStop.

Definition vrow_step (parse : meta -> elem -> M unit) (ov : overrides) (x : xctx) (y : yrow) : M vout :=
  let row := y_row y in
  match key_elem x row, content_elem x row with
  | Some row_val, Some row_data =>
      let val := lower (to_text row_val) in
      if seqb val ELLIPSIS then ret (VField (mkVField ELLIPSIS ELLIPSIS None))
      else
        label <- (match override_of ov (x_fig x) val with
                  | None => extract_value_label x row val row_data
                  | Some l => issue x L1007 (Some val) [] ;; ret l
                  end) ;;
        extract_data_sub_table parse (mkMeta None (x_fig x ++ [95] ++ val) (Some (x_fig x))) row_data ;;
        ret (VField (mkVField val label (content_extract_brief (to_text row_data) BRIEF_MAXLEN)))
  | _, _ =>
      let row_txt := lower (to_text row) in
      if startswith ELLIPSIS row_txt then ret (VField (mkVField ELLIPSIS ELLIPSIS None))
      else if startswith (utf8 "notes:") row_txt then ret VStop
      else ret VNone
  end.

Fixpoint vrun_rows (parse : meta -> elem -> M unit) (ov : overrides) (x : xctx)
    (rows : list yrow) (fin : option exn) (fields : list vfield) : M (list vfield) :=
  match rows with
  | [] => match fin with None => ret fields | Some e => throw e end
  | y :: rest =>
      if contains_th (y_row y) then vrun_rows parse ov x rest fin fields
      else
        o <- vrow_step parse ov x y ;;
        match o with
        | VField f => vrun_rows parse ov x rest fin (fields ++ [f])
        | VNone => vrun_rows parse ov x rest fin fields
        | VStop => ret fields
        end
  end.

Lemma value_loop_run parse ov x rows fin : forall fields f,
  value_loop parse ov x rows fin fields f = vrun_rows parse ov x rows fin fields f.
Proof.
  induction rows as [|y rest IH]; intros fields f; [reflexivity|].
  cbn [value_loop vrun_rows]. destruct (contains_th (y_row y)); [apply IH|]. unfold vrow_step.
  destruct (key_elem x (y_row y)) as [k|], (content_elem x (y_row y)) as [c|].
  1: { destruct (seqb (lower (to_text k)) ELLIPSIS); [rewrite bind_ret; apply IH|].
       rewrite bind_assoc. apply bind_k. intros l g. rewrite bind_assoc. apply bind_k. intros u g'.
       rewrite bind_ret. apply IH. }
  all: destruct (startswith ELLIPSIS _); [rewrite bind_ret; apply IH|];
       destruct (startswith (utf8 "notes:") _); rewrite bind_ret; [reflexivity | apply IH].
Qed.

Lemma validate_label_flagless l fig key : flagless (validate_label l fig key).
Proof. unfold validate_label. destruct (label_invalid _); [apply flagless_add_issue | apply flagless_ret]. Qed.

Lemma extract_value_label_flagless x row v c : flagless (extract_value_label x row v c).
Proof.
  unfold extract_value_label, finish_value_label.
  assert (F : forall l, flagless (validate_label (normalize_label (rearrange_num_label l)) (x_fig x) v ;;
                                  ret (normalize_label (rearrange_num_label l)))).
  { intros l. apply flagless_bind; [apply validate_label_flagless | intros; apply flagless_ret]. }
  destruct (negb _).
  - apply flagless_bind; [|intros; destruct (seqb _ _); [apply flagless_ret | apply F]].
    unfold extract_label_dedicated. destruct (label_elem x row); [|apply flagless_throw].
    destruct (seqb _ _); [apply flagless_ret|]. destruct (split1 58 _) as [h [u|]];
      (apply flagless_bind; [|intros; apply flagless_ret]); [apply flagless_ret | apply flagless_add_issue].
  - destruct (extract_content c) as [text|].
    + destruct (seqb _ _); [apply flagless_ret|]. apply flagless_bind; [|intros; apply F].
      destruct (grp_nonempty _ _); [apply flagless_ret|]. apply flagless_bind; [apply flagless_add_issue | intros; apply flagless_ret].
    + apply flagless_bind; [apply flagless_add_issue | intros; apply flagless_throw].
Qed.

Lemma override_some ov fig v l : override_of ov fig v = Some l <-> overridden ov fig v l.
Proof.
  unfold override_of. induction ov as [|[[a b] l'] ov IH]; cbn [find fst snd].
  - split; [discriminate|]. intros (p & q & E & _). destruct p; discriminate.
  - destruct (seqb a fig && seqb b v) eqn:B.
    + apply andb_true_iff in B as [A B]. apply seqb_eq in A, B. subst. cbn [snd]. split.
      * intros [= <-]. exists [], ov. split; [reflexivity | intros []].
      * intros (p & q & E & N). destruct p as [|p0 p]; [injection E as <- _; reflexivity|]. injection E as <- _. destruct N. left. reflexivity.
    + rewrite IH. split.
      * intros (p & q & -> & N). exists ((a, b, l') :: p), q. split; [reflexivity|]. intros [E|E]; [|contradiction].
        injection E as -> ->. rewrite !seqb_refl in B. discriminate.
      * intros (p & q & E & N). destruct p as [|p0 p].
        -- injection E as -> -> _ _. rewrite !seqb_refl in B. discriminate.
        -- injection E as <- ->. exists p, q. split; [reflexivity|]. intros H. apply N. right. exact H.
Qed.
Lemma override_none ov fig v : override_of ov fig v = None <-> not_overridden ov fig v.
Proof.
  unfold not_overridden. split.
  - intros E H. apply in_map_iff in H as ([[a b] l] & H1 & H2). cbn in H1. injection H1 as -> ->. unfold override_of in E.
    destruct (find _ ov) eqn:F; [discriminate|]. eapply find_none in F; [|exact H2]. cbn in F. rewrite !seqb_refl in F. discriminate.
  - intros N. destruct (override_of ov fig v) as [l|] eqn:E; [|reflexivity]. apply override_some in E as (p & q & -> & _).
    destruct N. rewrite map_app. apply in_or_app. right. left. reflexivity.
Qed.

Lemma vrow_step_inv parse ov x y f o f' t : x_fig x <> [] ->
  vrow_step parse ov x y f = (Ok o, f', t) ->
  match o with
  | VField fld => vrow_gives ov x y (Some fld)
      /\ (forall l, vf_val fld <> lbl_ellipsis -> override_of ov (x_fig x) (vf_val fld) = Some l ->
          vf_label fld = l /\ In (row_ev L1007 x (vf_val fld)) t)
  | VNone => vrow_gives ov x y None
  | VStop => (forall k c, ~ value_cells x (y_row y) k c) /\ exists u, lower (to_text (y_row y)) = utf8 "notes:" ++ u
  end.
Proof.
  intros Hx. unfold vrow_step. destruct (value_cells_dec x (y_row y)) as [(k & c & -> & -> & VC) | [NM VC]].
  - destruct (seqb_spec (lower (to_text k)) ELLIPSIS) as [E|NE].
    + intros [= <- <- <-]. split; [eapply vg_ellipsis; eassumption|]. intros l H. destruct H. reflexivity.
    + intros H. apply bind_ok_inv in H as (lbl & f1 & t1 & t2 & E1 & E2 & ->).
      apply bind_ok_inv in E2 as ([] & f2 & t3 & t4 & E2 & E3 & ->). injection E3 as <- <- <-. cbn [vf_val vf_label].
      destruct (override_of ov (x_fig x) (lower (to_text k))) as [l|] eqn:OV.
      * unfold issue in E1. unfold bind in E1. rewrite add_issue_row in E1 by exact Hx. injection E1 as <- <- <-.
        split; [eapply vg_override; try eassumption; [apply override_some; exact OV | apply brief_iff; reflexivity]|]. intros l' _ [= <-]. split; [reflexivity|]. left. reflexivity.
      * split; [|intros l _ [=]]. apply override_none in OV. destruct (value_inv _ _ _ _ _ _ _ _ Hx (proj2 VC) E1) as (s & LT & VL).
        eapply vg_label; try eassumption. apply brief_iff. reflexivity.
  - assert (G : (let row_txt := lower (to_text (y_row y)) in
        if startswith ELLIPSIS row_txt then ret (VField (mkVField ELLIPSIS ELLIPSIS None))
        else if startswith (utf8 "notes:") row_txt then ret VStop else ret VNone) f = (Ok o, f', t) ->
      match o with
      | VField fld => vrow_gives ov x y (Some fld)
          /\ (forall l, vf_val fld <> lbl_ellipsis -> override_of ov (x_fig x) (vf_val fld) = Some l ->
              vf_label fld = l /\ In (row_ev L1007 x (vf_val fld)) t)
      | VNone => vrow_gives ov x y None
      | VStop => (forall k c, ~ value_cells x (y_row y) k c) /\ exists u, lower (to_text (y_row y)) = utf8 "notes:" ++ u
      end).
    { cbv zeta. destruct (startswith ELLIPSIS (lower (to_text (y_row y)))) eqn:S1.
      - intros [= <- <- <-]. apply startswith_app in S1 as (u & S1). split; [eapply vg_short_ellipsis; eassumption|].
        intros l H. destruct H. reflexivity.
      - assert (N1 : forall u, lower (to_text (y_row y)) <> lbl_ellipsis ++ u).
        { intros u E. assert (startswith ELLIPSIS (lower (to_text (y_row y))) = true) by (apply startswith_app; eauto). congruence. }
        destruct (startswith (utf8 "notes:") (lower (to_text (y_row y)))) eqn:S2.
        + intros [= <- <- <-]. apply startswith_app in S2. auto.
        + intros [= <- <- <-]. apply vg_short; auto. intros u E.
          assert (startswith (utf8 "notes:") (lower (to_text (y_row y))) = true) by (apply startswith_app; eauto). congruence. }
    destruct (key_elem x (y_row y)), (content_elem x (y_row y)); [destruct NM | exact G | exact G | exact G].
Qed.

Lemma vrun_rows_inv parse ov x rows fin : x_fig x <> [] -> forall fields f fs f' t,
  vrun_rows parse ov x rows fin fields f = (Ok fs, f', t) ->
  exists gs, fs = fields ++ gs /\ vrows_give ov x rows gs
    /\ Forall (fun g => forall l, vf_val g <> lbl_ellipsis -> override_of ov (x_fig x) (vf_val g) = Some l ->
          vf_label g = l /\ In (row_ev L1007 x (vf_val g)) t) gs.
Proof.
  intros Hx. induction rows as [|y rest IH]; intros fields f fs f' t H.
  - cbn in H. destruct fin; [discriminate|]. injection H as <- <- <-. exists []. rewrite app_nil_r.
    split; [reflexivity|]. split; constructor.
  - cbn [vrun_rows] in H. destruct (contains_th (y_row y)) eqn:TH.
    + assert (HT : children t_th (y_row y) <> []) by (intros E; apply contains_th_children in E; congruence).
      destruct (IH _ _ _ _ _ H) as (gs & -> & G & L). exists gs. split; [reflexivity|].
      split; [apply vt_header; assumption | exact L].
    + apply contains_th_children in TH.
      apply bind_ok_inv in H as (o & f1 & t1 & t2 & E1 & E2 & ->).
      apply vrow_step_inv in E1; [|exact Hx]. destruct o as [fld| |].
      * destruct E1 as [RG RL]. destruct (IH _ _ _ _ _ E2) as (gs & -> & G & L). exists (fld :: gs). rewrite <- app_assoc.
        split; [reflexivity|]. split; [apply vt_field; assumption|]. constructor.
        -- intros l N O. destruct (RL l N O) as [A B]. split; [exact A | apply in_or_app; auto].
        -- rewrite Forall_forall in *. intros g Hg l N O. destruct (L g Hg l N O) as [A B]. split; [exact A | apply in_or_app; auto].
      * destruct (IH _ _ _ _ _ E2) as (gs & -> & G & L). exists gs.
        split; [reflexivity|]. split; [apply vt_nothing; assumption|].
        rewrite Forall_forall in *. intros g Hg l N O. destruct (L g Hg l N O) as [A B]. split; [exact A | apply in_or_app; auto].
      * injection E2 as <- <- <-. exists []. rewrite app_nil_r. split; [reflexivity|].
        destruct E1 as [NC (u & E)]. split; [eapply vt_stop; eassumption | constructor].
Qed.

Lemma validate_values_flagless x fs : flagless (validate_values x fs).
Proof.
  unfold validate_values. destruct fs as [|a [|b r]]; try apply flagless_ret.
  generalize (@nil str) at 1. generalize (@nil str). generalize (a :: b :: r). clear.
  induction l as [|g l IH]; intros vs ls; [apply flagless_ret|]. cbn [values_loop].
  destruct (smem _ _); [apply IH|]. apply flagless_bind; [destruct (smem _ _); [apply flagless_add_issue | apply flagless_ret]|].
  intros _. apply flagless_bind; [destruct (smem _ _); [apply flagless_add_issue | apply flagless_ret] | intros _; apply IH].
Qed.

Lemma value_call_inv parse ov x tbl f f' t : x_fig x <> [] ->
  value_call parse ov x tbl f = (Ok tt, f', t) ->
  exists fs tr tv,
    vrows_give ov x (fst (row_iter tbl)) fs
    /\ t = tr ++ tv ++ [EvEnt (mkEntity (x_meta x) (BValues fs))]
    /\ (exists f1, validate_values x fs f1 = (Ok tt, f1, tv))
    /\ Forall (fun g => forall l, vf_val g <> lbl_ellipsis -> override_of ov (x_fig x) (vf_val g) = Some l ->
          vf_label g = l /\ In (row_ev L1007 x (vf_val g)) tr) fs
    /\ exists f1, value_loop parse ov x (fst (row_iter tbl)) (snd (row_iter tbl)) [] f = (Ok fs, f1, tr).
Proof.
  intros Hx. unfold value_call. destruct (row_iter tbl) as [rows fin]. cbn [fst snd]. intros H.
  apply bind_ok_inv in H as (fs & f1 & t1 & t2 & E1 & E2 & ->).
  pose proof E1 as E1'. rewrite value_loop_run in E1. apply vrun_rows_inv in E1 as (gs & -> & G & L); [|exact Hx].
  cbn [app] in *.
  apply bind_ok_inv in E2 as ([] & f2 & t3 & t4 & E2 & E3 & ->). injection E3 as <- <-.
  assert (f2 = f1) as ->.
  { destruct (validate_values_flagless x gs) as (r & ev & E). rewrite E in E2. congruence. }
  exists gs, t1, t3. split; [exact G|]. split; [reflexivity|]. split; [exists f1; exact E2|]. split; [exact L|]. exists f1. exact E1'.
Qed.
