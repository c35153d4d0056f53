(** Proofs for C80: the rows of a table, with exactly what they report. *)
From Coq Require Import NArith ZArith List Bool String Lia ZifyBool ZifyN.
From Verif Require Import PyTables PyStr PyStrFacts Regex Regexes Xml Json Lint RowIter Helpers Extract Document
  RegexFacts MFacts SpecText SpecFields SpecLabel SpecHeader SpecRows SpecTable SpecDoc SpecRun SpecReads SpecEnd SpecOut
  RangeProofs LabelProofs ValidateProofs RowProofs HeaderProofs TableProofs SizeProofs Prop_Label Prop_Range Prop_Header DocProofs DocFlow DocRuns
  Prop_Table Prop_Doc ReadProofs ReadFigs EndProofs SpecNames NameProofs CellRead.
Import ListNotations.
Local Open Scope list_scope.
Local Open Scope N_scope.
Local Open Scope m_scope.

(** ** Labels *)
Lemma check_validity x key l evs : LabelProofs.label_check x key l evs ->
  exists ls, evs = map EvLint ls /\ label_validity (x_fig x) key l ls.
Proof.
  intros [[V ->] | [V ->]]; [exists [] | exists [row_lint L1004 (x_fig x) key [(utf8 "label", JStr l)]]]; (split; [reflexivity|]); constructor; exact V.
Qed.
Lemma label_total x s key : x_fig x <> [] ->
  exists lbl ls, (forall f, parse_label x s key f = (Ok lbl, f, map EvLint ls))
    /\ label_entries (x_content x =? x_label x)%nat (x_fig x) key s ls.
Proof.
  intros Hx.
  assert (K : exists raw a, label_source (x_content x =? x_label x)%nat s raw /\ form_entries (x_content x =? x_label x)%nat (x_fig x) key s a
     /\ forall f, (if Nat.eqb (x_content x) (x_label x) then extract_label_same x s key else extract_label_separate x s key) f = (Ok raw, f, map EvLint a)).
  { destruct (x_content x =? x_label x)%nat eqn:SM.
    - pose proof (struct_split_text s) as T. destruct (struct_split s) as [[name acr] rest]. destruct acr as [|c acr].
      + destruct name as [|c name].
        * exists s, [row_lint L1000 (x_fig x) key []]. split; [eapply la_text; [reflexivity | exact T]|]. split; [eapply fe_empty; [reflexivity | exact T]|].
          intros f. apply (same_failed x s rest key f Hx T).
        * assert (FE : form_entries true (x_fig x) key s []) by (eapply fe_name; [reflexivity | exact T | discriminate]).
          destruct (words_of_exists (c :: name)) as (us & W).
          destruct (smem (upper (c :: name)) SPECIAL_CASE_SET) eqn:SC.
          -- exists (c :: name), []. split; [|split; [exact FE|]].
             ++ eapply la_word; [reflexivity | exact T | discriminate|]. apply smem_In in SC. exact SC.
             ++ intros f. apply (same_special x s (c :: name) rest key f T); [discriminate | exact SC].
          -- exists (lower (first_letters us)), []. split; [|split; [exact FE|]].
             ++ eapply la_name; [reflexivity | exact T | discriminate | | exact W]. intros I. apply smem_In in I.
                change [lbl_reserved; lbl_ellipsis; lbl_obsolete] with SPECIAL_CASE_SET in I. congruence.
             ++ intros f. apply (same_initials x s (c :: name) rest key us f T); [discriminate | unfold special_word; congruence | exact W].
      + exists (c :: acr), []. split; [eapply la_acronym; [reflexivity | exact T | discriminate]|]. split; [eapply fe_name; [reflexivity | exact T|]|].
        * destruct name; discriminate.
        * intros f. apply (same_acronym x s name (c :: acr) rest key f T). discriminate.
    - destruct (in_dec N.eq_dec 58 s) as [I|NI].
      + assert (exists h t, s = h ++ 58 :: t /\ ~ In 58 h) as (h & t & -> & NH).
        { clear -I. induction s as [|c s IH]; [destruct I|]. destruct (N.eq_dec c 58) as [->|NE]; [exists [], s; split; [reflexivity | intros []]|].
          destruct IH as (h & t & -> & NH); [destruct I; [congruence | assumption]|]. exists (c :: h), t. split; [reflexivity|]. intros [E|J]; [congruence | exact (NH J)]. }
        exists h. destruct (in_dec N.eq_dec 32 h) as [J|J].
        * exists [row_lint L1004 (x_fig x) key []]. split; [eapply la_before; eauto|]. split; [eapply fe_space; eauto|].
          intros f. rewrite (separate_colon x h t key f Hx NH). replace (has_char 32 h) with true; [reflexivity|]. symmetry. apply has_char_In, J.
        * exists []. split; [eapply la_before; eauto|]. split; [eapply fe_before; eauto|].
          intros f. rewrite (separate_colon x h t key f Hx NH). replace (has_char 32 h) with false; [reflexivity|]. symmetry. apply not_true_iff_false. rewrite has_char_In. exact J.
      + destruct (words_of_exists s) as (us & W). exists (first_letters us), [row_lint L1003 (x_fig x) key []].
        split; [eapply la_words; eauto|]. split; [eapply fe_imputed; eauto|]. intros f. apply (separate_nocolon x s us key f Hx NI W). }
  destruct K as (raw & a & LS & FE & E).
  destruct (parse_label_of x s key false raw _ Hx (E false)) as (evs & PL & LC).
  destruct (check_validity _ _ _ _ LC) as (b & -> & VB).
  exists (lower (normalize_label raw)), (a ++ b). split; [|exists raw, (normalize_label raw), a, b; split; [exact LS|]; split; [apply normal_iff; reflexivity|]; auto].
  intros f. destruct (parse_label_of x s key f raw _ Hx (E f)) as (evs & PL' & LC'). rewrite PL', map_app. do 2 f_equal.
  destruct (check_validity _ _ _ _ LC') as (b' & -> & VB'). f_equal. destruct VB, VB'; (reflexivity || contradiction).
Qed.

(** ** Value labels *)
Lemma finish_told x raw key : x_fig x <> [] ->
  exists l ls, (forall f, finish_value_label x raw key f = (Ok l, f, map EvLint ls))
    /\ value_name raw l /\ label_validity (x_fig x) key l ls.
Proof.
  intros Hx. assert (VN : value_name raw (normalize_label (rearrange_num_label raw))) by (apply value_name_iff; reflexivity). set (l := normalize_label (rearrange_num_label raw)). exists l. destruct (valid_label_dec l) as [V|V].
  - exists []. split; [|split; [exact VN | constructor; exact V]]. intros f. unfold finish_value_label. cbv zeta. fold l. unfold bind. rewrite validate_label_ok by exact V. reflexivity.
  - exists [row_lint L1004 (x_fig x) key [(utf8 "label", JStr l)]]. split; [|split; [exact VN | constructor; exact V]].
    intros f. unfold finish_value_label. cbv zeta. fold l. unfold bind. rewrite validate_label_bad by assumption. reflexivity.
Qed.
Lemma value_label_total x row key k content : x_fig x <> [] -> value_cells x row k content ->
  (exists s l ls, label_cell_text x row s /\ (forall f, extract_value_label x row key content f = (Ok l, f, map EvLint ls))
    /\ value_entries (x_content x =? x_label x)%nat (x_fig x) key s ls)
  \/ ((forall td, nth_error (children t_td row) (x_label x) = Some td -> children t_p td = [])
      /\ exists e, forall f, extract_value_label x row key content f
           = (Exn e, f, map EvLint (if (x_content x =? x_label x)%nat then [row_lint L1000 (x_fig x) key []] else []))).
Proof.
  intros Hx VC. unfold extract_value_label. destruct (x_content x =? x_label x)%nat eqn:SM; cbn [negb].
  - apply Nat.eqb_eq in SM. unfold extract_content, nth_child. destruct (children t_p content) as [|p ps] eqn:CP.
    + right. split.
      * intros td H. destruct VC as [_ V]. rewrite SM in V. congruence.
      * eexists. intros f. cbn [nth_error]. unfold bind, issue. rewrite add_issue_row by exact Hx. reflexivity.
    + left. cbn [nth_error]. exists (to_text p).
      assert (LT : label_cell_text x row (to_text p)) by (exists content, p, ps; rewrite <- SM; split; [exact (proj2 VC) | auto]).
      destruct (seqb_spec (upper (to_text p)) RESERVED) as [R|R].
      { exists RESERVED, []. split; [exact LT|]. split; [reflexivity|]. apply ve_reserved; [reflexivity | exact R]. }
      destruct (C18_pattern_total (to_text p)) as (name & VT & g & RM & G).
      rewrite RM. unfold grp_nonempty, grp. rewrite G. destruct name as [|c name].
      * destruct (finish_told x (to_text p) key Hx) as (l & ls & F & VN & V). exists l, (row_lint L1000 (x_fig x) key [] :: ls).
        split; [exact LT|]. split; [|eapply ve_text; eauto].
        intros f. rewrite (bind_ok _ _ f (to_text p) f [EvLint (row_lint L1000 (x_fig x) key [])]); [rewrite F; reflexivity|].
        unfold bind, issue. rewrite add_issue_row by exact Hx. reflexivity.
      * destruct (finish_told x (c :: name) key Hx) as (l & ls & F & VN & V). exists l, ls.
        split; [exact LT|]. split; [|eapply ve_name; eauto; discriminate].
        intros f. rewrite (bind_ok _ _ f (c :: name) f []); [rewrite F; reflexivity | reflexivity].
  - unfold extract_label_dedicated, label_elem, nth_child. destruct (nth_error (children t_td row) (x_label x)) as [td|] eqn:TD.
    2: { right. split; [intros td H; congruence|]. eexists. reflexivity. }
    destruct (children t_p td) as [|p ps] eqn:CP.
    + right. split; [intros td' H; congruence|]. eexists. reflexivity.
    + left. cbn [nth_error]. exists (to_text p).
      assert (LT : label_cell_text x row (to_text p)) by (exists td, p, ps; auto).
      destruct (seqb_spec (lower (to_text p)) (utf8 "reserved")) as [R|R].
      { exists RESERVED, []. split; [exact LT|]. split; [reflexivity|]. apply ve_own_reserved; [reflexivity | exact R]. }
      set (txt := lower (to_text p)) in *.
      pose proof (split1_none 58 txt) as N2. pose proof (split1_eq 58 txt) as SE. pose proof (split1_fst_not_In 58 txt) as SX.
      destruct (split1 58 txt) as [h t]. cbn [fst snd] in *. cbv zeta.
      set (raw := upper (replace_char 32 [95] h)).
      set (a := match t with None => [row_lint L1003 (x_fig x) key []] | Some _ => [] end).
      assert (D : forall f, bind (match t with None => issue x L1003 (Some key) [] | Some _ => ret tt end) (fun _ => ret raw) f = (Ok raw, f, map EvLint a)).
      { intros f. unfold a. destruct t; [reflexivity|]. unfold bind, issue. rewrite add_issue_row by exact Hx. reflexivity. }
      assert (BC : before_colon txt h).
      { split; [exact SX|]. destruct t as [t|]; [right; exists t; exact SE | left; exact SE]. }
      assert (CE : colon_entries (x_fig x) key txt a).
      { unfold a. destruct t as [t|].
        - left. split; [|reflexivity]. rewrite SE. apply in_elt.
        - right. split; [apply N2; reflexivity | reflexivity]. }
      assert (RW : raw = upper (underscored h)) by (unfold raw; rewrite underscored_replace; reflexivity).
      change RESERVED with lbl_reserved. destruct (seqb_spec (upper raw) lbl_reserved) as [RR|RR].
      * exists lbl_reserved, a. split; [exact LT|]. split; [|eapply ve_own_word; eauto; rewrite <- RW; exact RR].
        intros f. rewrite (bind_ok _ _ f raw f _ (D f)). rewrite (proj2 (seqb_eq _ _) RR). unfold ret. rewrite app_nil_r. reflexivity.
      * destruct (finish_told x raw key Hx) as (l & b & B1 & VN & B2). exists l, (a ++ b). split; [exact LT|].
        split; [|rewrite RW in *; eapply ve_own; eauto].
        intros f. rewrite (bind_ok _ _ f raw f _ (D f)). rewrite (proj2 (seqb_neq _ _) RR). rewrite B1, map_app. reflexivity.
Qed.

(** ** Ranges *)
Lemma range_told x t : x_fig x <> [] ->
  (exists r, reads_numbers t r /\ forall f, parse_range x t t f = (Ok r, f, map EvLint (range_entries (x_fig x) t r)))
  \/ (too_long t /\ exists e, forall f, parse_range x t t f = (Exn e, f, [])).
Proof.
  intros Hx. destruct (range_forms t) as [(hi & lo & T) | [(hi & T) | T]].
  - destruct (N.le_gt_cases (N.of_nat (List.length hi)) 4300) as [C1|C1]; [destruct (N.le_gt_cases (N.of_nat (List.length lo)) 4300) as [C2|C2]|].
    + left. eexists. split; [apply (rn_two t hi lo T C1 C2)|]. intros f. rewrite (parse_range_two x Hx t hi lo) by assumption.
      unfold range_entries. do 2 f_equal.
      destruct (N.ltb_spec (dec_value hi) (dec_value lo)), (Z.ltb_spec (Z.of_N (dec_value hi)) (Z.of_N (dec_value lo))); try lia; reflexivity.
    + right. assert (NC : ~ (convertible hi /\ convertible lo)) by (unfold convertible; lia).
      split; [left; exists hi, lo; auto|]. eexists. intros f. apply (parse_range_two_long x t hi lo); assumption.
    + right. assert (NC : ~ (convertible hi /\ convertible lo)) by (unfold convertible; lia).
      split; [left; exists hi, lo; auto|]. eexists. intros f. apply (parse_range_two_long x t hi lo); assumption.
  - destruct (N.le_gt_cases (N.of_nat (List.length hi)) 4300) as [C1|C1].
    + left. eexists. split; [apply (rn_one t hi T C1)|]. intros f. rewrite (parse_range_one x t hi) by assumption.
      unfold range_entries. rewrite Z.ltb_irrefl. reflexivity.
    + right. assert (NC : ~ convertible hi) by (unfold convertible; lia).
      split; [right; exists hi; auto|]. eexists. intros f. apply (parse_range_one_long x t hi); assumption.
  - left. eexists. split; [apply rn_text, T|]. intros f. rewrite (parse_range_text x Hx) by assumption. reflexivity.
Qed.
Lemma dynamic_told x t : x_fig x <> [] ->
  exists r, reads_formula t r /\ forall f, parse_dynamic_range x t f = (Ok r, f, map EvLint (range_entries (x_fig x) t r)).
Proof.
  intros Hx. destruct (dyn_split (replace_char 32 [] (replace_char 10 [] t))) as [[a b]|] eqn:D.
  - assert (F : formula_range t a b) by (apply formula_range_split; exact D).
    eexists. split; [apply rf_two, F|]. intros f. apply (formula_range_ok x t a b f F).
  - assert (F : forall a b, ~ formula_range t a b) by (intros a b F; apply formula_range_split in F; congruence).
    eexists. split; [apply rf_text, F|]. intros f. apply (formula_range_none x t f Hx F).
Qed.

(** ** Steps *)
Definition step_of (i : item) : step := match i with Entry l => SOwn [EvLint l] | Nested n => SNest (fst n) (snd n) end.
Definition steps_of (its : list item) : list step := map step_of its.
Lemma steps_app a b : steps_of (a ++ b) = steps_of a ++ steps_of b.
Proof. apply map_app. Qed.
Lemma exec_entries {A} p ls (fin : res A) f : exec p (steps_of (map Entry ls)) fin f = (fin, f, map EvLint ls).
Proof. induction ls as [|l ls IH]; [reflexivity|]. cbn [map steps_of exec step_of]. unfold steps_of in IH. rewrite IH. reflexivity. Qed.
Lemma follows_entries {A} (c : M A) ls fin : fin <> OutOfFuel -> (forall f, c f = (fin, f, map EvLint ls)) ->
  follows (fun _ => c) (steps_of (map Entry ls)) fin.
Proof. intros N H. split; [exact N|]. intros p f. rewrite exec_entries. apply H. Qed.
Lemma steps_nested x key c : steps_of (map Nested (nested_in x key c)) = map (SNest (sub_meta (x_fig x) key)) (children t_table c).
Proof. unfold steps_of, nested_in. rewrite !map_map. reflexivity. Qed.

(** ** One row of a struct table *)
Lemma row_told x dyn y : x_fig x <> [] ->
  (exists its o, follows (fun p => row_step p x dyn y) (steps_of its) (Ok o) /\
     match o with
     | RStop ex => row_ends x y /\ ends_with x y ex /\ its = []
     | _ => ~ row_ends x y /\ row_items x dyn y its
     end)
  \/ (exists e, follows (fun p => row_step p x dyn y) [] (Exn e) /\ row_fails x dyn y).
Proof.
  intros Hx. unfold row_step. destruct (extract_fields x (y_row y)) as [[[[rt ct] lt] c]|] eqn:EF.
  - apply extract_fields_some in EF as (k & l & RC & -> & -> & ->).
    assert (NY : ~ row_ends x y) by (intros [u N _ | ex N _ _ _]; exact (N _ _ _ RC)).
    destruct (is_special_case (to_text k) || is_special_case (to_text l) || is_special_case (to_text c)) eqn:SP.
    + destruct (is_special_case (to_text k)) eqn:SK.
      * left. exists [], RNone. split; [apply follows_ret|]. split; [exact NY|]. apply special_iff in SK. eapply ri_special_range; eassumption.
      * cbn [orb] in SP. apply special_not in SK. apply orb_true_iff in SP. rewrite !special_iff in SP.
        destruct (range_told x (to_text k) Hx) as [(r & RN & E) | (TL & e & E)].
        -- left. exists (map Entry (range_entries (x_fig x) (to_text k) r)), (match handle_special_case (to_text c) r with Some f => RField f | None => RNone end).
           split.
           ++ replace (steps_of (map Entry (range_entries (x_fig x) (to_text k) r))) with (steps_of (map Entry (range_entries (x_fig x) (to_text k) r)) ++ []) by apply app_nil_r.
              apply (follows_bind (fun _ => parse_range x (to_text k) (to_text k))
                (fun _ r => ret (match handle_special_case (to_text c) r with Some f => RField f | None => RNone end)) _ r); [|apply follows_ret].
              apply follows_entries; [discriminate | exact E].
           ++ assert (RI : row_items x dyn y (map Entry (range_entries (x_fig x) (to_text k) r))) by (eapply ri_special; eassumption).
              destruct (handle_special_case _ r); split; assumption.
        -- right. exists e. split; [|eapply rx_number; try eassumption; right; exact SP].
           apply (follows_bind_exn (fun _ => parse_range x (to_text k) (to_text k)) (fun _ r => _)).
           apply (follows_entries _ []); [discriminate | exact E].
    + apply orb3_false in SP as (S1 & S2 & S3). apply special_not in S1, S2, S3.
      assert (RR : (exists r, (if dyn then reads_formula (to_text k) r else reads_numbers (to_text k) r)
           /\ forall f, (if dyn then parse_dynamic_range x (to_text k) else parse_range x (to_text k) (to_text k)) f = (Ok r, f, map EvLint (range_entries (x_fig x) (to_text k) r)))
         \/ (dyn = false /\ too_long (to_text k) /\ exists e, forall f, (if dyn then parse_dynamic_range x (to_text k) else parse_range x (to_text k) (to_text k)) f = (Exn e, f, []))).
      { destruct dyn; [left; apply dynamic_told, Hx|]. destruct (range_told x (to_text k) Hx) as [R | [R1 R2]]; [left; exact R | right; auto]. }
      destruct RR as [(r & RR & E) | (-> & TL & e & E)].
      2: { right. exists e. split; [|eapply rx_number; eauto].
           apply (follows_bind_exn (fun _ => parse_range x (to_text k) (to_text k)) (fun _ r => _)).
           apply (follows_entries _ []); [discriminate | exact E]. }
      destruct (label_total x (to_text l) (key_of_range r) Hx) as (lbl & ls & LE & LN).
      left. exists (map Entry (range_entries (x_fig x) (to_text k) r ++ ls) ++ map Nested (nested_in x (key_of_range r) c)),
        (RField (struct_field r lbl (content_extract_brief (to_text c) BRIEF_MAXLEN))).
      split; [|split; [exact NY | eapply ri_regular; eassumption]].
      rewrite map_app, !steps_app, steps_nested, <- app_assoc.
      rewrite <- (app_nil_r (map _ (children t_table c))).
      apply (follows_bind (fun _ => if dyn then parse_dynamic_range x (to_text k) else parse_range x (to_text k) (to_text k)) (fun p r => _) _ r).
      { apply follows_entries; [discriminate | exact E]. }
      apply (follows_bind (fun _ => parse_label x (to_text l) (key_of_range r)) (fun p r => _) _ lbl).
      { apply follows_entries; [discriminate | exact LE]. }
      apply (follows_bind (fun p => iterM (p (sub_meta (x_fig x) (key_of_range r))) (children t_table c)) (fun p _ => _) _ tt); [apply follows_nested | apply follows_ret].
  - pose proof (proj1 (extract_fields_none _ _) EF) as EF'. clear EF. rename EF' into EF.
    destruct (startswith ELLIPSIS (lower (to_text (y_row y)))) eqn:E1.
    + left. exists [], (RField (struct_field (RInt (-1) (-1)) ELLIPSIS None)). split; [apply follows_ret|].
      split; [|apply ri_short; exact EF].
      apply startswith_app in E1 as (u & E1). intros [v N EN | ex N NE NN RE].
      * rewrite E1 in EN. discriminate.
      * exact (NE _ E1).
    + destruct (startswith (utf8 "note") (lower (to_text (y_row y)))) eqn:E2.
      * left. exists [], (RStop None). split; [apply follows_ret|]. apply startswith_app in E2 as (u & E2).
        split; [eapply re_note; eassumption|]. split; [|reflexivity]. split; [exact EF|]. left. eauto.
      * pose proof (not_prefix _ _ E1) as A1. pose proof (not_prefix _ _ E2) as A2.
        destruct (row_err_handler (ec_handler (x_cls x)) y) as [pol ex] eqn:RE. destruct pol.
        -- left. exists [], (RStop ex). split; [apply follows_ret|]. apply splits_iff in RE as (n & -> & RE).
           split; [eapply re_split; eassumption|]. split; [|reflexivity]. split; [exact EF|]. right. split; [exact A1|]. split; [exact A2|]. eauto.
        -- left. exists [], RNone. split; [apply follows_ret|]. split; [|apply ri_short; exact EF].
           apply tolerated_iff in RE as (_ & RE). intros [v N EN | n N NE NN RE']; [exact (A2 _ EN) | exact (tolerated_splits _ _ _ RE RE')].
        -- right. eexists. split; [apply follows_throw|]. apply rx_short; auto; apply (proj1 (refused_iff x y) (ex_intro _ ex RE)).
Qed.

(** ** All rows of a struct table *)
Lemma follows_quiet {A} (c : (meta -> elem -> M unit) -> M A) s fin : follows c s fin -> exists t, c quiet false = (fin, false, t).
Proof. intros [_ F]. destruct (exec_quiet s fin false) as (t & E). exists t. rewrite F. exact E. Qed.
Definition none_ends (x : xctx) (rows : list yrow) : Prop := forall z, In z rows -> data_row z -> ~ row_ends x z.
Lemma none_cons x y rows : (data_row y -> ~ row_ends x y) -> none_ends x rows -> none_ends x (y :: rows).
Proof. intros H N z [<-|I]; [exact H | exact (N z I)]. Qed.
Lemma above_cons x y rows : above_ends x rows -> above_ends x (y :: rows).
Proof. intros (z & I & D & R). exists z. split; [right; exact I | auto]. Qed.
Definition rows_result (x : xctx) (fin : option exn) (rows : list yrow) (dyn : bool) (fields : list sfield)
  (c : (meta -> elem -> M unit) -> M (list sfield * extra)) : Prop :=
  (exists its gs ex, follows c (steps_of its) (Ok (fields ++ gs, ex))
     /\ rows_items x dyn rows its ex /\ rows_give x dyn rows gs /\ (fin = None \/ above_ends x rows))
  \/ (exists its a y b e, follows c (steps_of its) (Exn e) /\ rows = a ++ y :: b /\ none_ends x a /\ data_row y
     /\ row_fails x (dyn || lists_above a) y /\ rows_items x dyn a its None)
  \/ (exists its e, follows c (steps_of its) (Exn e) /\ fin = Some e /\ none_ends x rows /\ rows_items x dyn rows its None).
Lemma rows_told x fin : x_fig x <> [] -> forall rows dyn fields,
  rows_result x fin rows dyn fields (fun p => run_rows p x rows fin dyn fields).
Proof.
  intros Hx. induction rows as [|y rows IH]; intros dyn fields; cbn [run_rows].
  - destruct fin as [e|].
    + right. right. exists [], e. split; [apply follows_throw|]. split; [reflexivity|]. split; [intros z [] | constructor].
    + left. exists [], [], None. rewrite app_nil_r. split; [apply follows_ret|]. split; [constructor|]. split; [constructor | left; reflexivity].
  - destruct (contains_th (y_row y)) eqn:TH.
    + assert (NH : ~ data_row y) by exact (header_not y TH).
      destruct (IH (dyn || announces_list (y_row y)) fields) as [(its & gs & ex & F & I & G & EN) | [(its & a & z & b & e & F & -> & N & D & RF & I) | (its & e & F & FE & N & I)]].
      * left. exists its, gs, ex. split; [exact F|]. split; [apply is_header; assumption|]. split; [apply tg_header; assumption|].
        destruct EN as [EN|EN]; [left; exact EN | right; apply above_cons, EN].
      * right. left. exists its, (y :: a), z, b, e. split; [exact F|]. split; [reflexivity|]. split; [apply none_cons; [intros DY; contradiction | exact N]|].
        split; [exact D|]. split; [|apply is_header; assumption]. cbn [lists_above existsb]. rewrite TH. cbn [andb]. rewrite orb_assoc. exact RF.
      * right. right. exists its, e. split; [exact F|]. split; [exact FE|]. split; [apply none_cons; [intros DY; contradiction | exact N] | apply is_header; assumption].
    + assert (DR := TH). apply contains_th_children in TH.
      destruct (row_told x dyn y Hx) as [(i1 & o & F1 & R1) | (e & F1 & R1)].
      2: { right. left. exists [], [], y, rows, e. split; [apply (follows_bind_exn (fun p => row_step p x dyn y) (fun p o => _) _ _ F1)|].
           split; [reflexivity|]. split; [intros z []|]. split; [exact TH|]. cbn [lists_above existsb]. rewrite orb_false_r. split; [exact R1 | constructor]. }
      destruct (follows_quiet _ _ _ F1) as (t & Q). pose proof (row_step_inv _ _ _ _ _ _ _ _ Hx Q) as RI.
      assert (K : forall fields' g, (o = RNone /\ fields' = fields /\ g = []) \/ (exists fld, o = RField fld /\ fields' = fields ++ [fld] /\ g = [fld]) ->
         rows_result x fin (y :: rows) dyn fields (fun p => bind (row_step p x dyn y) (fun o => match o with
              | RField f => run_rows p x rows fin dyn (fields ++ [f])
              | RNone => run_rows p x rows fin dyn fields
              | RStop ex => ret (fields, ex) end))).
      { intros fields' g Ho.
        assert (RX : ~ row_ends x y /\ row_items x dyn y i1) by (destruct Ho as [(-> & _) | (fld & -> & _)]; exact R1). destruct RX as [NE RX].
        assert (RG : row_gives x dyn y (match o with RField fld => Some fld | _ => None end)) by (destruct Ho as [(-> & _) | (fld & -> & _)]; [exact RI | exact (proj1 RI)]).
        assert (NF : ~ row_fails x dyn y) by (intros NF; exact (fails_gives _ _ _ _ NF RG)).
        assert (CMB : forall s fin', follows (fun p => run_rows p x rows fin dyn fields') s fin' ->
          follows (fun p => bind (row_step p x dyn y) (fun o => match o with
              | RField f => run_rows p x rows fin dyn (fields ++ [f])
              | RNone => run_rows p x rows fin dyn fields
              | RStop ex => ret (fields, ex) end)) (steps_of i1 ++ s) fin').
        { intros s fin' F. apply (follows_bind (fun p => row_step p x dyn y) (fun p o => _) _ o s fin' F1).
          destruct Ho as [(-> & -> & _) | (fld & -> & -> & _)]; exact F. }
        destruct (IH dyn fields') as [(its & gs & ex & F & I & G & EN) | [(its & a & z & b & e & F & -> & N & D & RF & I) | (its & e & F & FE & N & I)]].
        - left. exists (i1 ++ its), (g ++ gs), ex. rewrite steps_app. split; [|split; [apply is_row; assumption|split]].
          + replace (fields ++ g ++ gs) with (fields' ++ gs); [apply CMB, F|].
            destruct Ho as [(_ & -> & ->) | (fld & _ & -> & ->)]; [reflexivity | rewrite <- app_assoc; reflexivity].
          + destruct Ho as [(-> & -> & ->) | (fld & -> & -> & ->)]; [apply tg_nothing; assumption | apply tg_field; assumption].
          + destruct EN as [EN|EN]; [left; exact EN | right; apply above_cons, EN].
        - right. left. exists (i1 ++ its), (y :: a), z, b, e. rewrite steps_app. split; [apply CMB, F|]. split; [reflexivity|].
          split; [apply none_cons; [intros _; exact NE | exact N]|]. split; [exact D|].
          split; [|apply is_row; assumption]. cbn [lists_above existsb]. rewrite DR. exact RF.
        - right. right. exists (i1 ++ its), e. rewrite steps_app. split; [apply CMB, F|]. split; [exact FE|].
          split; [apply none_cons; [intros _; exact NE | exact N] | apply is_row; assumption]. }
      destruct o as [fld| |ex].
      * apply (K (fields ++ [fld]) [fld]). right. eauto.
      * apply (K fields []). left. auto.
      * destruct R1 as (RE & EW & ->). left. exists [], [], ex. rewrite app_nil_r. split.
        -- apply (follows_bind (fun p => row_step p x dyn y) (fun p o => _) [] (RStop ex) [] _ F1), follows_ret.
        -- split; [apply is_stop; assumption|]. split; [apply tg_stop; assumption|]. right. exists y. split; [left; reflexivity | auto].
Qed.

(** ** One row of a value table *)
Lemma vrow_told ov x y : x_fig x <> [] ->
  (exists its o, follows (fun p => vrow_step p ov x y) (steps_of its) (Ok o) /\
     match o with
     | VStop => vrow_ends x y /\ its = []
     | _ => ~ vrow_ends x y /\ vrow_items ov x y its
     end)
  \/ (exists e k c, follows (fun p => vrow_step p ov x y)
         (steps_of (map Entry (if (x_content x =? x_label x)%nat then [row_lint L1000 (x_fig x) (lower (to_text k)) []] else []))) (Exn e)
       /\ vrow_fails ov x y /\ value_cells x (y_row y) k c).
Proof.
  intros Hx. unfold vrow_step. destruct (value_cells_dec x (y_row y)) as [(k & c & -> & -> & VC) | [NM NC]].
  - assert (NE : ~ vrow_ends x y) by (intros [H _]; exact (H _ _ VC)).
    destruct (seqb_spec (lower (to_text k)) ELLIPSIS) as [E|E].
    { left. eexists [], _. split; [apply follows_ret|]. split; [exact NE|]. eapply vi_ellipsis; eassumption. }
    assert (CMB : forall m lbl ls, (forall f, m f = (Ok lbl, f, map EvLint ls)) ->
      follows (fun p => bind m (fun label => extract_data_sub_table p (mkMeta None (x_fig x ++ [95] ++ lower (to_text k)) (Some (x_fig x))) c ;;
         ret (VField (mkVField (lower (to_text k)) label (content_extract_brief (to_text c) BRIEF_MAXLEN)))))
        (steps_of (map Entry ls ++ map Nested (nested_in x (lower (to_text k)) c)))
        (Ok (VField (mkVField (lower (to_text k)) lbl (content_extract_brief (to_text c) BRIEF_MAXLEN))))).
    { intros m lbl ls H. rewrite steps_app, steps_nested, <- (app_nil_r (map _ (children t_table c))).
      apply (follows_bind (fun _ => m) (fun p r => _) _ lbl); [apply follows_entries; [discriminate | exact H]|].
      apply (follows_bind (fun p => iterM (p (sub_meta (x_fig x) (lower (to_text k)))) (children t_table c)) (fun p _ => _) _ tt); [apply follows_nested | apply follows_ret]. }
    destruct (override_of ov (x_fig x) (lower (to_text k))) as [l|] eqn:OV.
    + left. exists (map Entry [row_lint L1007 (x_fig x) (lower (to_text k)) []] ++ map Nested (nested_in x (lower (to_text k)) c)). eexists. split; [apply CMB|].
      * intros f. unfold bind, issue. rewrite add_issue_row by exact Hx. reflexivity.
      * split; [exact NE|]. apply override_some in OV. eapply vi_override; eassumption.
    + apply override_none in OV.
      destruct (value_label_total x (y_row y) (lower (to_text k)) k c Hx VC) as [(s & l & ls & LT & EL & VE) | (NL & e & EL)].
      * left. exists (map Entry ls ++ map Nested (nested_in x (lower (to_text k)) c)). eexists. split; [apply CMB; exact EL|].
        split; [exact NE|]. eapply vi_label; eassumption.
      * right. exists e, k, c. split; [|split; [eapply vx_label; eassumption | exact VC]].
        apply (follows_bind_exn (fun _ => extract_value_label x (y_row y) (lower (to_text k)) c) (fun p r => _)).
        apply follows_entries; [discriminate | exact EL].
  - left. assert (VF : vrow_items ov x y []) by (apply vi_short; exact NC).
    assert (N : exists its o, follows (fun _ => if startswith ELLIPSIS (lower (to_text (y_row y))) then ret (VField (mkVField ELLIPSIS ELLIPSIS None))
       else if startswith (utf8 "notes:") (lower (to_text (y_row y))) then ret VStop else ret VNone) (steps_of its) (Ok o) /\
       match o with VStop => vrow_ends x y /\ its = [] | _ => ~ vrow_ends x y /\ vrow_items ov x y its end).
    { destruct (startswith ELLIPSIS (lower (to_text (y_row y)))) eqn:E1; [|destruct (startswith (utf8 "notes:") (lower (to_text (y_row y)))) eqn:E2].
      - eexists [], _. split; [apply follows_ret|]. split; [|exact VF]. intros [_ (u & E)]. rewrite E in E1. discriminate.
      - eexists [], _. split; [apply follows_ret|]. split; [|reflexivity]. apply startswith_app in E2. split; assumption.
      - eexists [], _. split; [apply follows_ret|]. split; [|exact VF]. intros [_ E]. apply startswith_app in E. congruence. }
    destruct (key_elem x (y_row y)), (content_elem x (y_row y)); [destruct NM | exact N | exact N | exact N].
Qed.

Definition vnone_ends (x : xctx) (rows : list yrow) : Prop := forall z, In z rows -> data_row z -> ~ vrow_ends x z.
Lemma vnone_cons x y rows : (data_row y -> ~ vrow_ends x y) -> vnone_ends x rows -> vnone_ends x (y :: rows).
Proof. intros H N z [<-|I]; [exact H | exact (N z I)]. Qed.
Lemma vabove_cons x y rows : vabove_ends x rows -> vabove_ends x (y :: rows).
Proof. intros (z & I & D & R). exists z. split; [right; exact I | auto]. Qed.
Definition vrows_result (ov : overrides) (x : xctx) (fin : option exn) (rows : list yrow) (fields : list vfield)
  (c : (meta -> elem -> M unit) -> M (list vfield)) : Prop :=
  (exists its gs, follows c (steps_of its) (Ok (fields ++ gs))
     /\ vrows_items ov x rows its /\ vrows_give ov x rows gs /\ (fin = None \/ vabove_ends x rows))
  \/ (exists its a y b k d e, follows c (steps_of (its ++ map Entry (if (x_content x =? x_label x)%nat then [row_lint L1000 (x_fig x) (lower (to_text k)) []] else []))) (Exn e)
     /\ rows = a ++ y :: b /\ vnone_ends x a /\ data_row y /\ vrow_fails ov x y /\ value_cells x (y_row y) k d /\ vrows_items ov x a its)
  \/ (exists its e, follows c (steps_of its) (Exn e) /\ fin = Some e /\ vnone_ends x rows /\ vrows_items ov x rows its).
Lemma vrows_told ov x fin : x_fig x <> [] -> forall rows fields,
  vrows_result ov x fin rows fields (fun p => vrun_rows p ov x rows fin fields).
Proof.
  intros Hx. induction rows as [|y rows IH]; intros fields; cbn [vrun_rows].
  - destruct fin as [e|].
    + right. right. exists [], e. split; [apply follows_throw|]. split; [reflexivity|]. split; [intros z [] | constructor].
    + left. exists [], []. rewrite app_nil_r. split; [apply follows_ret|]. split; [constructor|]. split; [constructor | left; reflexivity].
  - destruct (contains_th (y_row y)) eqn:TH.
    + assert (NH : ~ data_row y) by exact (header_not y TH).
      destruct (IH fields) as [(its & gs & F & I & G & EN) | [(its & a & z & b & k & d & e & F & -> & N & D & RF & VC & I) | (its & e & F & FE & N & I)]].
      * left. exists its, gs. split; [exact F|]. split; [apply vs_header; assumption|]. split; [apply vt_header; assumption|].
        destruct EN as [EN|EN]; [left; exact EN | right; apply vabove_cons, EN].
      * right. left. exists its, (y :: a), z, b, k, d, e. split; [exact F|]. split; [reflexivity|]. split; [apply vnone_cons; [intros DY; contradiction | exact N]|].
        split; [exact D|]. split; [exact RF|]. split; [exact VC | apply vs_header; assumption].
      * right. right. exists its, e. split; [exact F|]. split; [exact FE|]. split; [apply vnone_cons; [intros DY; contradiction | exact N] | apply vs_header; assumption].
    + apply contains_th_children in TH.
      destruct (vrow_told ov x y Hx) as [(i1 & o & F1 & R1) | (e & k & d & F1 & R1 & VC)].
      2: { right. left. exists [], [], y, rows, k, d, e. split; [apply (follows_bind_exn (fun p => vrow_step p ov x y) (fun p o => _) _ _ F1)|].
           split; [reflexivity|]. split; [intros z []|]. split; [exact TH|]. split; [exact R1|]. split; [exact VC | constructor]. }
      destruct (follows_quiet _ _ _ F1) as (t & Q). pose proof (vrow_step_inv _ _ _ _ _ _ _ _ Hx Q) as RI.
      assert (K : forall fields' g, (o = VNone /\ fields' = fields /\ g = []) \/ (exists fld, o = VField fld /\ fields' = fields ++ [fld] /\ g = [fld]) ->
         vrows_result ov x fin (y :: rows) fields (fun p => bind (vrow_step p ov x y) (fun o => match o with
              | VField f => vrun_rows p ov x rows fin (fields ++ [f])
              | VNone => vrun_rows p ov x rows fin fields
              | VStop => ret fields end))).
      { intros fields' g Ho.
        assert (RX : ~ vrow_ends x y /\ vrow_items ov x y i1) by (destruct Ho as [(-> & _) | (fld & -> & _)]; exact R1). destruct RX as [NE RX].
        assert (CMB : forall s fin', follows (fun p => vrun_rows p ov x rows fin fields') s fin' ->
          follows (fun p => bind (vrow_step p ov x y) (fun o => match o with
              | VField f => vrun_rows p ov x rows fin (fields ++ [f])
              | VNone => vrun_rows p ov x rows fin fields
              | VStop => ret fields end)) (steps_of i1 ++ s) fin').
        { intros s fin' F. apply (follows_bind (fun p => vrow_step p ov x y) (fun p o => _) _ o s fin' F1).
          destruct Ho as [(-> & -> & _) | (fld & -> & -> & _)]; exact F. }
        destruct (IH fields') as [(its & gs & F & I & G & EN) | [(its & a & z & b & k & d & e & F & -> & N & D & RF & VC & I) | (its & e & F & FE & N & I)]].
        - left. exists (i1 ++ its), (g ++ gs). rewrite steps_app. split; [|split; [apply vs_row; assumption|split]].
          + replace (fields ++ g ++ gs) with (fields' ++ gs); [apply CMB, F|].
            destruct Ho as [(_ & -> & ->) | (fld & _ & -> & ->)]; [reflexivity | rewrite <- app_assoc; reflexivity].
          + destruct Ho as [(-> & -> & ->) | (fld & -> & -> & ->)]; [apply vt_nothing; assumption | apply vt_field; [assumption | exact (proj1 RI) | assumption]].
          + destruct EN as [EN|EN]; [left; exact EN | right; apply vabove_cons, EN].
        - right. left. exists (i1 ++ its), (y :: a), z, b, k, d, e. rewrite <- app_assoc, steps_app. split; [apply CMB, F|]. split; [reflexivity|].
          split; [apply vnone_cons; [intros _; exact NE | exact N]|]. split; [exact D|].
          split; [exact RF|]. split; [exact VC | apply vs_row; assumption].
        - right. right. exists (i1 ++ its), e. rewrite steps_app. split; [apply CMB, F|]. split; [exact FE|].
          split; [apply vnone_cons; [intros _; exact NE | exact N] | apply vs_row; assumption]. }
      destruct o as [fld| |].
      * apply (K (fields ++ [fld]) [fld]). right. eauto.
      * apply (K fields []). left. auto.
      * destruct R1 as (VE & ->). left. exists [], []. rewrite app_nil_r. split.
        -- apply (follows_bind (fun p => vrow_step p ov x y) (fun p o => _) [] VStop [] _ F1), follows_ret.
        -- split; [apply vs_stop; assumption|]. split; [eapply vt_stop; [exact TH | exact (proj1 RI) | exact (proj2 (proj2 RI))] || (destruct RI as [R1 (u & R2)]; eapply vt_stop; eassumption)|].
           right. exists y. split; [left; reflexivity | auto].
Qed.
