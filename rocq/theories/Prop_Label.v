(** Properties C16-C22 and C62: labels and briefs made from the text of a table cell.
    [parse_label x txt key f] makes the label of a struct row, [extract_value_label x row key
    data f] that of a value row; the result is (outcome, flag, recorded events). *)
From Coq Require Import NArith ZArith List Bool String Lia.
From Verif Require Import PyStr PyStrFacts Regex Regexes Xml Json Lint Helpers Extract MFacts SpecText
  SpecLabel RangeProofs LabelProofs.
Import ListNotations.
Local Open Scope list_scope.
Local Open Scope N_scope.

(** C16 *)
Theorem C16_brief : forall txt b,
  content_extract_brief txt BRIEF_MAXLEN = Some b ->
  N.of_nat (List.length b) <= 60 /\ In 58 txt /\ ~ begins (is_char 32) b /\ piece_of b txt.
Proof. intros txt b H. exact (brief_spec txt 60 b H). Qed.
Print Assumptions C16_brief.

(** C16: which piece it is.  The part after the label and acronym, without final dots and
    leading spaces, if that is short enough, else its part before the first dot. *)
Theorem C16_brief_exact : forall txt name acr rest body,
  struct_text txt name acr rest ->
  body = lstrip_by (N.eqb 32) (rstrip_by (N.eqb 46) rest) ->
  (~ In 58 txt \/ rest = [] -> content_extract_brief txt BRIEF_MAXLEN = None)
  /\ (In 58 txt -> rest <> [] -> N.of_nat (List.length body) <= 60 ->
      content_extract_brief txt BRIEF_MAXLEN = Some body)
  /\ (In 58 txt -> rest <> [] -> N.of_nat (List.length body) > 60 ->
      forall sent more, body = sent ++ more -> ~ In 46 sent -> (more = [] \/ begins (is_char 46) more) ->
      content_extract_brief txt BRIEF_MAXLEN
      = if N.of_nat (List.length sent) <=? 60 then Some sent else None).
Proof.
  intros txt name acr rest body H ->. rewrite (brief_exact txt BRIEF_MAXLEN name acr rest H).
  change BRIEF_MAXLEN with 60. cbv zeta. set (b := lstrip_by _ _). repeat split.
  - intros [C | ->].
    + apply has_char_not_In in C. rewrite C. reflexivity.
    + rewrite orb_true_r. reflexivity.
  - intros C R L. apply has_char_In in C. rewrite C. apply seqb_neq in R. rewrite R. cbn [negb orb].
    apply N.leb_le in L. rewrite L. reflexivity.
  - intros C R L sent more E Hs Hm. apply has_char_In in C. rewrite C. apply seqb_neq in R. rewrite R. cbn [negb orb].
    replace (N.of_nat (List.length b) <=? 60) with false by (symmetry; apply N.leb_gt; lia).
    assert (S : fst (split1 46 b) = sent).
    { rewrite E. destruct Hm as [-> | (c & r & -> & Hc)].
      - rewrite app_nil_r, split1_notin by exact Hs. reflexivity.
      - unfold is_char in Hc. apply N.eqb_eq in Hc. subst. rewrite split1_app by exact Hs. reflexivity. }
    rewrite S. reflexivity.
Qed.
Print Assumptions C16_brief_exact.

(** C17: the pattern matches every text, and name and acronym are as described. *)
Theorem C17_pattern_total : forall s, exists name acr rest g,
  struct_text s name acr rest
  /\ re_match STRUCT_LABEL_REGEX s = Some g
  /\ group G_label g = Some name /\ group G_acronym g = Some acr
  /\ group G_brief g = match rest with [] => None | _ => Some rest end.
Proof.
  intros s. pose proof (struct_split_text s) as P. destruct (RegexFacts.struct_split s) as [[name acr] rest] eqn:E.
  pose proof (brief_group s) as B. pose proof (acronym_group s) as A. pose proof (label_group s) as L.
  rewrite E in A, B, L. cbn [fst snd] in *.
  destruct (re_match STRUCT_LABEL_REGEX s) as [g|]; [|discriminate].
  unfold grp in *. exists name, acr, rest, g. repeat split; auto. destruct rest; exact B.
Qed.
Print Assumptions C17_pattern_total.

Theorem C17_reading_unique : forall s n a r n' a' r',
  struct_text s n a r -> struct_text s n' a' r' -> n = n' /\ a = a' /\ r = r'.
Proof.
  intros s n a r n' a' r' H H'. apply struct_text_split in H, H'. rewrite H in H'.
  injection H' as -> -> ->. auto.
Qed.
Print Assumptions C17_reading_unique.

(** C17, C20: the label emitted for a row whose label and content share a column. *)
Theorem C17_same_column : forall x s name acr rest us key f,
  x_fig x <> [] -> x_content x = x_label x ->
  struct_text s name acr rest -> words_of name us ->
  let raw := match acr, name with
             | _ :: _, _ => acr
             | [], _ :: _ => if smem (upper name) [utf8 "RESERVED"; [8230]; utf8 "OBSOLETE"]
                             then name else lower (first_letters us)
             | [], [] => s
             end in
  let l := normalize_label raw in
  exists evs, parse_label x s key f = (Ok (lower l), f, evs)
    /\ ((valid_label l /\ evs = match acr, name with [], [] => [row_ev L1000 x key] | _, _ => [] end)
        \/ (~ valid_label l /\ evs = match acr, name with [], [] => [row_ev L1000 x key] | _, _ => [] end
                                     ++ [l1004 (x_fig x) key l])).
Proof.
  intros x s name acr rest us key f Hx Hc H Hw raw l.
  assert (E : (if Nat.eqb (x_content x) (x_label x) then extract_label_same x s key
               else extract_label_separate x s key) f
              = (Ok raw, f, match acr, name with [], [] => [row_ev L1000 x key] | _, _ => [] end)).
  { rewrite Hc, Nat.eqb_refl. unfold raw. destruct acr as [|a acr].
    - destruct name as [|n name].
      + apply (same_failed x s rest key f Hx H).
      + change [utf8 "RESERVED"; [8230]; utf8 "OBSOLETE"] with SPECIAL_CASE_SET.
        destruct (smem (upper (n :: name)) SPECIAL_CASE_SET) eqn:S.
        * apply (same_special x s _ rest key f H); [discriminate | exact S].
        * apply (same_initials x s _ rest key us f H); [discriminate | unfold special_word; congruence | exact Hw].
    - apply (same_acronym x s name _ rest key f H). discriminate. }
  destruct (parse_label_of x s key f raw _ Hx E) as (evs & P & C). fold l in P, C.
  eexists. split; [exact P|]. destruct C as [[V ->] | [V ->]]; [left | right]; (split; [exact V|]); [apply app_nil_r | reflexivity].
Qed.
Print Assumptions C17_same_column.

(** C17: 'Name (ACR): text' *)
Theorem C17_acronym_form : forall x name acr text key f,
  all name_char name -> acr <> [] -> all isword acr ->
  extract_label_same x (name ++ [40] ++ acr ++ [41] ++ [58] ++ text) key f = (Ok acr, f, []).
Proof.
  intros x name acr text key f Hn Ha Hw. apply (same_acronym x _ name acr text key f); [|exact Ha].
  exists [40], [41], [58]. split; [reflexivity|]. split; [exact Hn|].
  split. { intros (c & r & E & H). cbn in E. injection E as <- _. vm_compute in H. discriminate. }
  split; [left; reflexivity|]. split.
  { eapply Forall_impl; [|exact Hw]. intros c H. unfold word_or_space. rewrite H. reflexivity. }
  split. { intros (c & r & E & H). cbn in E. injection E as <- _. vm_compute in H. discriminate. }
  split; left; reflexivity.
Qed.
Print Assumptions C17_acronym_form.

(** C18: the label of a value row without an attribute column.  The pattern always matches;
    leading digits are moved to the end (C62). *)
Theorem C18_value_label : forall x row key data text name f,
  x_fig x <> [] -> x_content x = x_label x ->
  extract_content data = Some text -> value_text text name ->
  (upper text = utf8 "RESERVED" ->
     extract_value_label x row key data f = (Ok (utf8 "RESERVED"), f, []))
  /\ (upper text <> utf8 "RESERVED" ->
      let l := normalize_label (rearrange_num_label (match name with [] => text | _ => name end)) in
      exists evs, extract_value_label x row key data f
        = (Ok l, f, match name with [] => [row_ev L1000 x key] | _ => [] end ++ evs)
        /\ ((valid_label l /\ evs = []) \/ (~ valid_label l /\ evs = [l1004 (x_fig x) key l]))).
Proof.
  intros x row key data text name f Hx Hc Ht Hn. unfold extract_value_label.
  rewrite Hc, Nat.eqb_refl, Ht. change (negb true) with false. change (utf8 "RESERVED") with RESERVED. split.
  - intros ->. rewrite seqb_refl. reflexivity.
  - intros Hr. set (l := normalize_label (rearrange_num_label (match name with [] => text | _ => name end))). apply seqb_neq in Hr. rewrite Hr. rewrite (value_group text name Hn).
    destruct (finish_value x (match name with [] => text | _ => name end) key f Hx) as (evs & E & C).
    fold l in E, C. exists evs. split; [|exact C].
    destruct name as [|c name].
    + unfold issue. unfold bind at 1. unfold bind at 1. rewrite add_issue_row by exact Hx. cbn.
      rewrite E. reflexivity.
    + unfold bind at 1. cbn. rewrite E. reflexivity.
Qed.
Print Assumptions C18_value_label.

Theorem C18_pattern_total : forall s, exists name, value_text s name
  /\ exists g, re_match VALUE_LABEL_REGEX s = Some g /\ group G_label g = Some name.
Proof.
  intros s. exists (take_while vname_char s). split; [apply value_text_split; reflexivity|].
  rewrite RegexFacts.VALUE_LABEL_REGEX_spec. unfold RegexFacts.value_split.
  eexists. split; [reflexivity|]. destruct (RegexFacts.skip1 58 _); reflexivity.
Qed.
Print Assumptions C18_pattern_total.

(** C62: a label that begins with a number: the number is moved behind the rest of its
    first line; what follows the first line is lost. *)
Theorem C62_number_moved : forall d line after,
  numeral d -> ~ begins isdigit (line ++ after) -> ~ In 10 line ->
  (after = [] \/ begins (is_char 10) after) ->
  rearrange_num_label (d ++ line ++ after)
  = strip_by (N.eqb 95) (strip_by (N.eqb 95) line ++ [95] ++ d).
Proof. intros. eapply rearrange_spec; eauto. Qed.
Print Assumptions C62_number_moved.

(** In particular 'digits name' becomes 'name_digits' (no underscore at the ends of name). *)
Theorem C62_number_moved_plain : forall d name,
  numeral d -> name <> [] -> ~ begins isdigit name -> ~ In 10 name ->
  ~ begins (is_char 95) name -> ~ begins (is_char 95) (rev name) ->
  rearrange_num_label (d ++ name) = name ++ [95] ++ d.
Proof.
  intros d name Hd Hne Hb Hl H1 H2.
  pose proof (C62_number_moved d name [] Hd) as P. rewrite app_nil_r in P. rewrite P; auto. clear P.
  assert (F : forall c, N.eqb 95 c = is_char 95 c) by (intros c; unfold is_char; apply N.eqb_sym).
  assert (S1 : stops (N.eqb 95) name).
  { destruct name as [|c r]; [exact I|]. change (N.eqb 95 c = false). rewrite F. destruct (is_char 95 c) eqn:E; [|reflexivity].
    exfalso. apply H1. exists c, r. auto. }
  assert (S2 : stops (N.eqb 95) (rev name)).
  { destruct (rev name) as [|c r]; [exact I|]. change (N.eqb 95 c = false). rewrite F. destruct (is_char 95 c) eqn:E; [|reflexivity].
    exfalso. apply H2. exists c, r. auto. }
  rewrite (strip_of_stripped (N.eqb 95) name S1 S2). apply strip_of_stripped.
  - destruct name as [|c r]; [congruence|]. exact S1.
  - rewrite !rev_app_distr. cbn [rev app]. destruct Hd as [Hd1 Hd2].
    destruct (rev d) as [|c r] eqn:R.
    + apply (f_equal (@rev N)) in R. rewrite rev_involutive in R. contradiction.
    + change (N.eqb 95 c = false). assert (In c d) by (apply in_rev; rewrite R; left; reflexivity).
      pose proof (proj1 (Forall_forall _ _) Hd2 c H) as Hc. cbn beta in Hc.
      apply N.eqb_neq. intros <-. vm_compute in Hc. discriminate.
Qed.
Print Assumptions C62_number_moved_plain.

Theorem C62_other_unchanged : forall s, ~ begins isdigit s -> rearrange_num_label s = s.
Proof. exact rearrange_none. Qed.
Print Assumptions C62_other_unchanged.

(** C19 *)
Theorem C19_no_separators : forall s d, In d (normalize_label s) -> d <> 32 /\ d <> 47 /\ d <> 45.
Proof. exact normalize_no_sep. Qed.
Print Assumptions C19_no_separators.
Theorem C19_upper : forall s, upper (normalize_label s) = normalize_label s.
Proof. exact normalize_upper. Qed.
Print Assumptions C19_upper.
Theorem C19_trimmed : forall s, ~ In 47 s -> trimmed (normalize_label s).
Proof. exact normalize_trimmed. Qed.
Print Assumptions C19_trimmed.
Theorem C19_idempotent : forall s,
  sparse (strip s) -> normalize_label (normalize_label s) = normalize_label s.
Proof. exact normalize_idem. Qed.
Print Assumptions C19_idempotent.
Theorem C19_idempotent_refuted : exists s, normalize_label (normalize_label s) <> normalize_label s.
Proof. exists (utf8 "a   b"). vm_compute. discriminate. Qed.
Print Assumptions C19_idempotent_refuted.
Theorem C19_trimmed_refuted : exists s, ~ trimmed (normalize_label s).
Proof.
  exists [47; 9; 65]. intros [H _]. apply H. exists 9, [65]. split; vm_compute; reflexivity.
Qed.
Print Assumptions C19_trimmed_refuted.

(** C19: what a plain label becomes: names of word characters joined by single separators. *)
Theorem C19_words_joined : forall a c b,
  all isword a -> all isword b -> a <> [] -> b <> [] -> ~ In 95 (a ++ b) ->
  (c = 32 \/ c = 45) ->
  normalize_label (a ++ [c] ++ b) = upper a ++ [95] ++ upper b.
Proof.
  intros a c b Ha Hb Na Nb Hu Hc.
  assert (W : forall y, In y (a ++ b) -> isword y = true /\ isspace y = false /\ y <> 47 /\ y <> 45 /\ y <> 32 /\ y <> 95).
  { intros y Hy. assert (isword y = true).
    { apply in_app_or in Hy as [Hy | Hy]; [apply (proj1 (Forall_forall _ _) Ha y Hy) | apply (proj1 (Forall_forall _ _) Hb y Hy)]. }
    repeat split; auto; try (apply isword_not_space; assumption); intros ->; try discriminate; contradiction. }
  rewrite normalize_unfold.
  assert (S : strip (a ++ [c] ++ b) = a ++ [c] ++ b).
  { apply strip_of_stripped.
    - destruct a as [|y a]; [congruence|]. apply W. left. reflexivity.
    - rewrite !rev_app_distr. destruct (rev b) as [|y r] eqn:R.
      + apply (f_equal (@rev N)) in R. rewrite rev_involutive in R. contradiction.
      + cbn. apply W. apply in_or_app. right. apply in_rev. rewrite R. left. reflexivity. }
  rewrite S, sparse_body.
  assert (F : forall u, (forall y, In y u -> y <> 47 /\ y <> 45 /\ y <> 32) ->
     map to_us (filter (fun x => negb (x =? 47)) u) = u).
  { induction u as [|y u IH]; intros H; [reflexivity|]. destruct (H y (or_introl eq_refl)) as (H1 & H2 & H3).
    cbn. replace (y =? 47) with false by lia. cbn. unfold to_us at 1.
    replace ((y =? 32) || (y =? 45)) with false by lia. f_equal. apply IH. intros z Hz. apply H. right. exact Hz. }
  assert (E : map to_us (filter (fun x => negb (x =? 47)) (a ++ [c] ++ b)) = a ++ [95] ++ b).
  { rewrite !filter_app, !map_app. rewrite (F a), (F b).
    - f_equal. f_equal. destruct Hc as [-> | ->]; reflexivity.
    - intros y Hy. destruct (W y (in_or_app _ _ _ (or_intror Hy))). tauto.
    - intros y Hy. destruct (W y (in_or_app _ _ _ (or_introl Hy))). tauto. }
  rewrite E, replace_pair_id.
  - rewrite !upper_app. reflexivity.
  - intros u v Euv. assert (C1 : count_occ N.eq_dec (a ++ [95] ++ b) 95 = 1%nat).
    { rewrite !count_occ_app. assert (count_occ N.eq_dec a 95 = 0%nat).
      { apply count_occ_not_In. intros H. apply Hu, in_or_app. auto. }
      assert (count_occ N.eq_dec b 95 = 0%nat).
      { apply count_occ_not_In. intros H'. apply Hu, in_or_app. auto. }
      cbn. lia. }
    rewrite Euv, count_occ_app in C1. cbn in C1. lia.
Qed.
Print Assumptions C19_words_joined.

(** C20: what is checked and what is recorded. *)
Theorem C20_validate : forall lbl fig row f,
  fig <> [] ->
  (valid_label lbl -> validate_label lbl fig row f = (Ok tt, f, []))
  /\ (~ valid_label lbl ->
      validate_label lbl fig row f
      = (Ok tt, f, [EvLint (mkLint L1004 fig (code_msg L1004) (Some row)
                                   [(utf8 "label", JStr lbl)])])).
Proof. intros lbl fig row f H. split; [apply validate_label_ok | apply validate_label_bad; exact H]. Qed.
Print Assumptions C20_validate.

(** C21 *)
Theorem C21_identifiers : forall x s key f l f' evs,
  x_fig x <> [] ->
  parse_label x s key f = (Ok l, f', evs) ->
  (forall e, In (EvLint e) evs -> l_code e <> L1004) ->
  ~ dotted l -> ~ ellipsis_text l -> ~ In 10 l -> ~ In 775 l ->
  identifier l /\ ((forall c, In c l -> c < 128) -> c_identifier l).
Proof.
  intros x s key f l f' evs Hx H Hno Hd He H10 H775.
  destruct (parse_label_clean x s key f l f' evs Hx H Hno) as (v & -> & V).
  assert (I : identifier (lower v)).
  { apply lower_identifier; [|exact H10 | exact H775].
    destruct V as [V | [V | V]]; [exact V | |]; exfalso.
    - apply Hd, dotted_lower, V.
    - apply He, ellipsis_lower, V. }
  split; [exact I|]. intros A. apply identifier_ascii; assumption.
Qed.
Print Assumptions C21_identifiers.

(** C22: separate attribute column. *)
Theorem C22_separate_column : forall x s key f,
  x_fig x <> [] -> x_content x <> x_label x ->
  (forall us, ~ In 58 s -> words_of s us ->
     let l := normalize_label (first_letters us) in
     exists evs, parse_label x s key f = (Ok (lower l), f, row_ev L1003 x key :: evs)
       /\ ((valid_label l /\ evs = []) \/ (~ valid_label l /\ evs = [l1004 (x_fig x) key l])))
  /\ (forall h t, s = h ++ 58 :: t -> ~ In 58 h ->
     let l := normalize_label h in
     exists evs, parse_label x s key f
         = (Ok (lower l), f, (if has_char 32 h then [row_ev L1004 x key] else []) ++ evs)
       /\ ((valid_label l /\ evs = []) \/ (~ valid_label l /\ evs = [l1004 (x_fig x) key l]))).
Proof.
  intros x s key f Hx Hc. apply Nat.eqb_neq in Hc. split.
  - intros us Hs Hw l.
    assert (E : (if Nat.eqb (x_content x) (x_label x) then extract_label_same x s key
               else extract_label_separate x s key) f = (Ok (first_letters us), f, [row_ev L1003 x key])).
    { rewrite Hc. apply separate_nocolon; assumption. }
    destruct (parse_label_of x s key f _ _ Hx E) as (evs & P & C). exists evs. auto.
  - intros h t -> Hh l.
    assert (E : (if Nat.eqb (x_content x) (x_label x) then extract_label_same x (h ++ 58 :: t) key
               else extract_label_separate x (h ++ 58 :: t) key) f
               = (Ok h, f, if has_char 32 h then [row_ev L1004 x key] else [])).
    { rewrite Hc. apply separate_colon; assumption. }
    destruct (parse_label_of x _ key f _ _ Hx E) as (evs & P & C). exists evs. auto.
Qed.
Print Assumptions C22_separate_column.

Theorem C22_imputed_iff : forall x s key f,
  x_fig x <> [] ->
  exists l evs, parse_label x s key f = (Ok l, f, evs)
    /\ ((exists e, In (EvLint e) evs /\ l_code e = L1003)
        <-> x_content x <> x_label x /\ ~ In 58 s).
Proof.
  intros x s key f Hx. destruct (Nat.eq_dec (x_content x) (x_label x)) as [Hc | Hc].
  - pose proof (struct_split_text s) as P. destruct (RegexFacts.struct_split s) as [[name acr] rest].
    destruct (words_of_exists name) as (us & W).
    destruct (C17_same_column x s name acr rest us key f Hx Hc P W) as (evs & E & C).
    eexists. exists evs. split; [exact E|]. split; [|tauto].
    intros (e & He & Hcode). exfalso.
    assert (G : forall ev, In ev (match acr, name with [], [] => [row_ev L1000 x key] | _, _ => [] end) ->
              ev = row_ev L1000 x key).
    { intros ev. destruct acr; [destruct name|]; cbn; tauto || (intros [<- | []]; reflexivity). }
    destruct C as [[_ ->] | [_ ->]].
    + apply G in He. injection He as ->. discriminate.
    + apply in_app_or in He as [He | [He | []]].
      * apply G in He. injection He as ->. discriminate.
      * injection He as <-. discriminate.
  - destruct (C22_separate_column x s key f Hx Hc) as [A B].
    destruct (in_dec N.eq_dec 58 s) as [I | I].
    + pose proof (split1_eq 58 s) as E. pose proof (split1_fst_not_In 58 s) as N1.
      pose proof (split1_none 58 s) as N2. destruct (split1 58 s) as [h [t|]]; cbn in *.
      * destruct (B h t E N1) as (evs & P & C). eexists; eexists. split; [exact P|]. split; [|tauto].
        intros (e & He & Hcode). exfalso. apply in_app_or in He as [He | He].
        -- destruct (has_char 32 h); [destruct He as [He | []]; injection He as <-; discriminate | destruct He].
        -- destruct C as [[_ ->] | [_ ->]]; [destruct He|]. destruct He as [He | []]. injection He as <-. discriminate.
      * destruct (proj1 N2 eq_refl I).
    + destruct (words_of_exists s) as (us & W). destruct (A us I W) as (evs & P & C).
      eexists; eexists. split; [exact P|]. split; [auto|]. intros _.
      eexists. split; [left; reflexivity | reflexivity].
Qed.
Print Assumptions C22_imputed_iff.

(** C22, value tables with an attribute column: L1003 iff the text has no colon (and is not
    'reserved'). *)
Theorem C22_value_attribute : forall x row key data p1 txt f,
  x_fig x <> [] -> x_content x <> x_label x -> label_elem x row = Some p1 ->
  txt = lower (to_text p1) -> txt <> utf8 "reserved" ->
  exists r evs, extract_value_label x row key data f = (Ok r, f, evs)
    /\ ((exists e, In (EvLint e) evs /\ l_code e = L1003) <-> ~ In 58 txt).
Proof.
  intros x row key data p1 txt f Hx Hc Hp -> Hr. unfold extract_value_label.
  apply Nat.eqb_neq in Hc. rewrite Hc. cbn [negb]. unfold extract_label_dedicated. rewrite Hp.
  apply seqb_neq in Hr. rewrite Hr. set (txt := lower (to_text p1)) in *.
  pose proof (split1_none 58 txt) as N2. destruct (split1 58 txt) as [h t]. cbn [snd] in N2.
  set (lbl := upper (replace_char 32 [95] h)).
  assert (V : forall g, exists r evs,
     (if seqb (upper lbl) RESERVED then ret RESERVED else finish_value_label x lbl key) g = (Ok r, g, evs)
     /\ forall e, In (EvLint e) evs -> l_code e = L1004).
  { intros g. destruct (seqb (upper lbl) RESERVED).
    - eexists; eexists. split; [reflexivity|]. intros e [].
    - destruct (finish_value x lbl key g Hx) as (evs & E & C). eexists; exists evs. split; [exact E|].
      intros e He. destruct C as [[_ ->] | [_ ->]]; [destruct He|]. destruct He as [He | []]. injection He as <-. reflexivity. }
  destruct (V f) as (r & evs & E & Hev).
  assert (D : bind (match t with None => issue x L1003 (Some key) [] | Some _ => ret tt end)
                (fun _ => ret lbl) f
              = (Ok lbl, f, match t with None => [row_ev L1003 x key] | Some _ => [] end)).
  { destruct t; [reflexivity|]. unfold issue, bind. rewrite add_issue_row by exact Hx. reflexivity. }
  exists r, (match t with None => [row_ev L1003 x key] | Some _ => [] end ++ evs).
  rewrite (bind_ok _ _ f lbl f _ D), E. cbn [fst snd]. split; [reflexivity|].
  destruct t as [t|]; cbn [app].
  - split.
    + intros (e & He & Hcode). rewrite (Hev e He) in Hcode. discriminate.
    + intros H. apply N2 in H. discriminate.
  - split; [intros _; apply N2; reflexivity|]. intros _.
    eexists. split; [left; reflexivity | reflexivity].
Qed.
Print Assumptions C22_value_attribute.

(** ** Concrete cases *)
Definition demo_same : xctx := mkX BitsTableExtractor (mkMeta None (utf8 "7") None) 0 1 1.
Definition demo_sep : xctx := mkX BitsTableExtractor (mkMeta None (utf8 "7") None) 0 1 2.

Example demo_brief :
  content_extract_brief (utf8 "Power Fail (PF): Set on failure. ") BRIEF_MAXLEN = Some (utf8 "Set on failure. ").
Proof. vm_compute. reflexivity. Qed.
Example demo_brief_dot :
  content_extract_brief (utf8 "Power Fail (PF): Set on failure...") BRIEF_MAXLEN = Some (utf8 "Set on failure").
Proof. vm_compute. reflexivity. Qed.
Example demo_label :
  parse_label demo_same (utf8 "Power-Fail (PF 1): x") (utf8 "3") false = (Ok (utf8 "pf_1"), false, []).
Proof. vm_compute. reflexivity. Qed.
(** An invented label without any record, where label and content share a column... *)
Example demo_invented_silent :
  parse_label demo_same (utf8 "Power Fail: x") (utf8 "3") false = (Ok (utf8 "pf"), false, []).
Proof. vm_compute. reflexivity. Qed.
(** ... and with one where they do not. *)
Example demo_invented_reported :
  parse_label demo_sep (utf8 "Power Fail") (utf8 "3") false
  = (Ok (utf8 "pf"), false, [row_ev L1003 demo_sep (utf8 "3")]).
Proof. vm_compute. reflexivity. Qed.
(** A newline can end an accepted label: removing '/' exposes it. *)
Example demo_newline_label :
  parse_label demo_sep (65 :: 10 :: 47 :: 58 :: utf8 "x") (utf8 "3") false = (Ok [97; 10], false, []).
Proof. vm_compute. reflexivity. Qed.
(** Lower-casing U+0130 leaves a combining dot, which is not a word character. *)
Example demo_dotted_i :
  parse_label demo_sep (65 :: 304 :: 58 :: utf8 "x") (utf8 "3") false = (Ok [97; 105; 775], false, []).
Proof. vm_compute. reflexivity. Qed.
Example demo_sparse : sparse (utf8 "a b-c/d").
Proof.
  intros a x y b E Hx. change (utf8 "a b-c/d") with [97;32;98;45;99;47;100] in E.
  do 7 (destruct a as [|? a]; cbn in E;
        [inversion E; subst; first [reflexivity | vm_compute in Hx; discriminate] | injection E as _ E]).
  destruct a; discriminate.
Qed.
Example demo_number : rearrange_num_label (utf8 "128b guard") = utf8 "b guard_128".
Proof. vm_compute. reflexivity. Qed.
