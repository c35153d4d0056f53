(** Proofs about table headers and the choice of extractor. *)
From Coq Require Import NArith ZArith List Bool String Lia ZifyBool ZifyN.
From Verif Require Import PyTables PyStr PyStrFacts Regex Regexes Xml Json Lint RowIter Helpers Extract Document
  MFacts SpecText SpecLabel SpecHeader RangeProofs LabelProofs.
Import ListNotations.
Local Open Scope list_scope.
Local Open Scope N_scope.
Local Open Scope m_scope.

Lemma strip_trims t : trims_to t (strip t).
Proof.
  destruct (strip_ends isspace t) as [S1 S2]. split.
  - split; apply stops_not_begins; assumption.
  - destruct (strip_sub isspace t) as (a & b & E & Ha & Hb). exists a, b.
    split; [exact E|]. split; apply all_forallb; assumption.
Qed.

Lemma unbroken_eq t : unbroken t = replace_char 13 [] (replace_char 10 [32] t).
Proof.
  induction t as [|c t IH]; [reflexivity|]. cbn [unbroken]. rewrite IH. clear IH.
  change (replace_char 10 [32] (c :: t)) with ((if c =? 10 then [32] else [c]) ++ replace_char 10 [32] t).
  destruct (N.eqb_spec c 13) as [-> | E1].
  - reflexivity.
  - destruct (c =? 10) eqn:E2.
    + reflexivity.
    + change (c :: replace_char 13 [] (replace_char 10 [32] t)
        = (if c =? 13 then [] else [c]) ++ replace_char 13 [] (replace_char 10 [32] t)).
      replace (c =? 13) with false by lia. reflexivity.
Qed.

Lemma collapse_cons_ne x r : x <> 32 -> collapse_spaces (x :: r) = x :: collapse_spaces r.
Proof. intros H. cbn. replace (x =? 32) with false by lia. reflexivity. Qed.
Lemma collapse_32_32 r : collapse_spaces (32 :: 32 :: r) = collapse_spaces (32 :: r).
Proof. reflexivity. Qed.
Lemma collapse_32_stop r : ~ begins (is_char 32) r -> collapse_spaces (32 :: r) = 32 :: collapse_spaces r.
Proof.
  intros H. destruct r as [|y r]; [reflexivity|]. change (collapse_spaces (32 :: y :: r)) with
    (if y =? 32 then collapse_spaces (y :: r) else 32 :: collapse_spaces (y :: r)).
  destruct (y =? 32) eqn:E; [|reflexivity]. exfalso. apply H. exists y, r. auto.
Qed.

Lemma collapse_run n r : ~ begins (is_char 32) r ->
  collapse_spaces (repeat 32 (S n) ++ r) = 32 :: collapse_spaces r.
Proof.
  intros H. induction n as [|n IH]; [apply collapse_32_stop; exact H|].
  change (repeat 32 (S (S n)) ++ r) with (32 :: 32 :: (repeat 32 n ++ r)). rewrite collapse_32_32. exact IH.
Qed.

Lemma squeezed_collapse a b : squeezed a b <-> collapse_spaces a = b.
Proof.
  split.
  - induction 1 as [|c a b Hc _ IH | n a b Ha _ IH]; [reflexivity | |].
    + rewrite collapse_cons_ne by exact Hc. f_equal. exact IH.
    + rewrite collapse_run by exact Ha. f_equal. exact IH.
  - intros <-. remember (List.length a) as n eqn:En. revert a En.
    induction n as [n IH] using lt_wf_ind. intros a En. subst.
    destruct a as [|c a]; [constructor|]. destruct (N.eq_dec c 32) as [-> | Hc].
    + set (k := List.length (take_while (is_char 32) a)).
      assert (E : 32 :: a = repeat 32 (S k) ++ drop_while (is_char 32) a).
      { cbn [repeat app]. f_equal. rewrite <- (take_drop (is_char 32) a) at 1. f_equal.
        unfold k. pose proof (take_while_all (is_char 32) a) as T.
        induction (take_while (is_char 32) a) as [|x l IHl]; [reflexivity|]. cbn in *.
        apply andb_true_iff in T as [T1 T2]. unfold is_char in T1. apply N.eqb_eq in T1. subst.
        f_equal. apply IHl. exact T2. }
      assert (S : ~ begins (is_char 32) (drop_while (is_char 32) a)) by (apply stops_not_begins, drop_while_stops).
      rewrite E. rewrite collapse_run by exact S. constructor; [exact S|].
      apply (IH (List.length (drop_while (is_char 32) a))); [|reflexivity].
      cbn [List.length]. pose proof (drop_while_length (is_char 32) a). lia.
    + rewrite collapse_cons_ne by exact Hc. constructor; [exact Hc|]. apply (IH (List.length a)); [cbn; lia | reflexivity].
Qed.

Lemma clean_form text : header_form text (clean_hdr (strip (lower (strip text)))).
Proof.
  unfold clean_hdr. rewrite <- unbroken_eq.
  exists (strip text), (strip (lower (strip text))), (collapse_spaces (unbroken (strip (lower (strip text))))).
  repeat split; try apply strip_trims. apply squeezed_collapse. reflexivity.
Qed.

Lemma trims_unique t h : trims_to t h -> strip t = h.
Proof.
  intros [[T1 T2] (w1 & w2 & -> & B1 & B2)]. unfold strip, strip_by, lstrip_by.
  apply all_forallb in B1, B2. rewrite drop_while_app by exact B1.
  apply stops_not_begins in T1, T2.
  destruct h as [|c h].
  - cbn [app]. rewrite <- (app_nil_r w2) at 1. rewrite drop_while_app by exact B2. reflexivity.
  - rewrite drop_while_stop by exact T1. unfold rstrip_by. rewrite rev_app_distr.
    assert (B2' : forallb isspace (rev w2) = true).
    { rewrite forallb_forall in *. intros y Hy. apply B2. apply in_rev. exact Hy. }
    rewrite drop_while_app by exact B2'. rewrite drop_while_stop by exact T2. apply rev_involutive.
Qed.

Lemma header_form_unique text h : header_form text h -> h = clean_hdr (strip (lower (strip text))).
Proof.
  intros (t1 & t2 & t3 & H1 & H2 & H3 & H4).
  apply trims_unique in H1, H2, H4. apply squeezed_collapse in H3. subst.
  unfold clean_hdr. rewrite <- unbroken_eq. reflexivity.
Qed.

(** ** The header row *)
Definition hdr_of (th : elem) : str := clean_hdr (strip (lower (to_text th))).

Lemma hdr_of_form th : header_form (itertext th) (hdr_of th).
Proof. apply clean_form. Qed.

Definition variant_of (h : str) : option str :=
  if seqb h (utf8 "code") then Some h_value
  else if seqb h (utf8 "bit") then Some h_bits
  else if seqb h (utf8 "byte") then Some h_bytes else None.

Lemma variant_of_iff h v : variant_of h = Some v <-> known_variant h v.
Proof.
  unfold variant_of. split.
  - destruct (seqb_spec h (utf8 "code")) as [->|]; [intros [= <-]; constructor|].
    destruct (seqb_spec h (utf8 "bit")) as [->|]; [intros [= <-]; constructor|].
    destruct (seqb_spec h (utf8 "byte")) as [->|]; [intros [= <-]; constructor|]. discriminate.
  - intros []; reflexivity.
Qed.

Lemma variant_of_find h :
  find (fun p => seqb (fst p) h) tbl_normalize_mappings
  = match variant_of h with Some v => Some (h, v) | None => None end.
Proof.
  unfold tbl_normalize_mappings, variant_of. cbn [find fst].
  rewrite !(seqb_sym h).
  destruct (seqb_spec (utf8 "code") h) as [<-|]; [reflexivity|].
  destruct (seqb_spec (utf8 "bit") h) as [<-|]; [reflexivity|].
  destruct (seqb_spec (utf8 "byte") h) as [<-|]; reflexivity.
Qed.

Definition final_hdr (h : str) : str := match variant_of h with Some v => v | None => h end.
Definition t1006 (fig h : str) : list event :=
  match variant_of h with
  | Some v => [EvLint (mkLint T1006 fig (code_msg T1006) None [(utf8 "got", JStr h); (utf8 "expected", JStr v)])]
  | None => []
  end.

Lemma normalize_hdr_spec fig t f : fig <> [] ->
  normalize_hdr fig t f = (Ok (final_hdr (clean_hdr t)), f, t1006 fig (clean_hdr t)).
Proof.
  intros Hf. unfold normalize_hdr. rewrite variant_of_find. unfold final_hdr, t1006.
  destruct (variant_of (clean_hdr t)); [|reflexivity].
  unfold bind. rewrite add_issue_tbl by (exact Hf || reflexivity). reflexivity.
Qed.

Lemma mapM_pure {A B} (g : A -> M B) (h : A -> B) (ev : A -> list event) l :
  (forall a f, In a l -> g a f = (Ok (h a), f, ev a)) ->
  forall f, mapM g l f = (Ok (map h l), f, flat_map ev l).
Proof.
  induction l as [|a l IH]; intros H f; [reflexivity|]. cbn [mapM].
  unfold bind. rewrite H by (left; reflexivity). rewrite IH by (intros; apply H; right; assumption).
  cbn. rewrite app_nil_r. reflexivity.
Qed.

Lemma extract_tbl_headers_spec fig tbl f : fig <> [] ->
  extract_tbl_headers fig tbl f
  = (Ok (map (fun th => final_hdr (hdr_of th)) (hdr_cells tbl)), f,
     flat_map (fun th => t1006 fig (hdr_of th)) (hdr_cells tbl)).
Proof.
  intros Hf. unfold extract_tbl_headers. apply mapM_pure. intros a g _. apply normalize_hdr_spec. exact Hf.
Qed.

(** Normal forms are fixed. *)
Lemma clean_no_cr t c : In c (clean_hdr t) -> c <> 13 /\ c <> 10.
Proof.
  unfold clean_hdr. intros H. apply strip_In in H.
  assert (G : forall a, In c (collapse_spaces a) -> In c a).
  { intros a Ha. assert (S : squeezed a (collapse_spaces a)) by (apply squeezed_collapse; reflexivity).
    induction S as [|d a b _ _ IH | n a b _ _ IH]; [exact Ha | |].
    - destruct Ha as [<- | Ha]; [left; reflexivity | right; auto].
    - destruct Ha as [<- | Ha]; [left; reflexivity | apply in_or_app; right; auto]. }
  apply G in H. apply replace_char_In in H as [[H N1] | []].
  apply replace_char_In in H as [[H N2] | [H | []]]; lia.
Qed.

(** No two adjacent spaces. *)
Definition no_double (s : str) : Prop := forall a b, s <> a ++ 32 :: 32 :: b.
Lemma squeezed_no_double a b : squeezed a b -> no_double b.
Proof.
  assert (HD : forall a b, squeezed a b -> ~ begins (is_char 32) a -> ~ begins (is_char 32) b).
  { intros a' b' [|c a0 b0 Hc _ | n a0 b0 _ _] HH; [exact HH | |].
    - intros (d & r & [= <- <-] & E). apply HH. exists c, a0. auto.
    - exfalso. apply HH. exists 32, (repeat 32 n ++ a0). auto. }
  induction 1 as [|c a b Hc S IH | n a b Ha S IH]; intros u v E.
  - destruct u; discriminate.
  - destruct u as [|x u]; cbn in E; injection E as -> E; [congruence | apply (IH _ _ E)].
  - destruct u as [|x u]; cbn in E.
    + injection E as E. apply (HD a b S Ha). exists 32, v. auto.
    + injection E as <- E. apply (IH _ _ E).
Qed.
Lemma no_double_squeezed s : no_double s -> squeezed s s.
Proof.
  induction s as [|c s IH]; intros H; [constructor|].
  assert (H' : no_double s) by (intros a b E; apply (H (c :: a) b); rewrite E; reflexivity).
  destruct (N.eq_dec c 32) as [-> | Hc]; [|constructor; auto].
  apply (sq_run 0); [|auto]. intros (d & r & -> & E). unfold is_char in E. apply N.eqb_eq in E. subst.
  apply (H [] r). reflexivity.
Qed.
Lemma no_double_piece a s b : no_double (a ++ s ++ b) -> no_double s.
Proof. intros H u v E. apply (H (a ++ u) (v ++ b)). rewrite E, <- !app_assoc. reflexivity. Qed.

Lemma strip_fixed t : trimmed t -> strip t = t.
Proof. intros [H1 H2]. apply strip_of_stripped; apply stops_not_begins; assumption. Qed.

Lemma clean_idem t : clean_hdr (clean_hdr t) = clean_hdr t.
Proof.
  assert (T : trimmed (clean_hdr t)) by apply strip_trims.
  assert (N : forall c, In c (clean_hdr t) -> c <> 13 /\ c <> 10) by apply clean_no_cr.
  assert (D : no_double (clean_hdr t)).
  { unfold clean_hdr. set (u := collapse_spaces _).
    assert (ND : no_double u) by (eapply squeezed_no_double, squeezed_collapse; reflexivity).
    destruct (strip_sub isspace u) as (a & b & E & _). fold (strip u) in E. rewrite E in ND.
    eapply no_double_piece. exact ND. }
  set (h := clean_hdr t) in *. clearbody h. unfold clean_hdr.
  rewrite (replace_char_id 10) by (intros H; apply N in H; lia).
  rewrite (replace_char_id 13) by (intros H; apply N in H; lia).
  apply no_double_squeezed, squeezed_collapse in D. rewrite D. apply strip_fixed. exact T.
Qed.

Lemma lower_fixed_In s t : (forall c, In c t -> In c (lower s)) -> lower t = t.
Proof.
  intros H. unfold lower. apply flat_map_id_on. intros c Hc. apply H in Hc.
  unfold lower in Hc. apply in_flat_map in Hc as (d & _ & Hc). exact (lower_char_idem d c Hc).
Qed.

Lemma collapse_In a c : In c (collapse_spaces a) -> In c a.
Proof.
  intros Ha. assert (S : squeezed a (collapse_spaces a)) by (apply squeezed_collapse; reflexivity).
  induction S as [|d a b _ _ IH | n a b _ _ IH]; [exact Ha | |].
  - destruct Ha as [<- | Ha]; [left; reflexivity | right; auto].
  - destruct Ha as [<- | Ha]; [left; reflexivity | apply in_or_app; right; auto].
Qed.

Lemma lower_of_clean s : lower (clean_hdr (strip (lower s))) = clean_hdr (strip (lower s)).
Proof.
  apply (flat_map_id_on lower_char). intros c Hc. unfold clean_hdr in Hc.
  apply strip_In in Hc. apply collapse_In in Hc.
  apply replace_char_In in Hc as [[H N1] | []].
  apply replace_char_In in H as [[H N2] | [<- | []]]; [|reflexivity].
  apply strip_In in H. unfold lower in H. apply in_flat_map in H as (d & _ & H). exact (lower_char_idem d c H).
Qed.

Lemma variant_final h : variant_of (final_hdr h) = None.
Proof.
  unfold final_hdr. destruct (variant_of h) eqn:E; [|exact E].
  apply variant_of_iff in E. destruct E; reflexivity.
Qed.

Lemma final_hdr_clean h : clean_hdr h = h -> clean_hdr (final_hdr h) = final_hdr h.
Proof.
  intros H. unfold final_hdr. destruct (variant_of h) eqn:E; [|exact H].
  apply variant_of_iff in E. destruct E; reflexivity.
Qed.
Lemma final_hdr_lower h : lower h = h -> lower (final_hdr h) = final_hdr h.
Proof.
  intros H. unfold final_hdr. destruct (variant_of h) eqn:E; [|exact H].
  apply variant_of_iff in E. destruct E; reflexivity.
Qed.
Lemma clean_trimmed t : trimmed (clean_hdr t). Proof. apply strip_trims. Qed.

Lemma header_fixed th : let h := final_hdr (hdr_of th) in
  final_hdr (clean_hdr (strip (lower (strip h)))) = h /\ variant_of (clean_hdr (strip (lower (strip h)))) = None.
Proof.
  cbv zeta. set (h := final_hdr (hdr_of th)).
  assert (C : clean_hdr h = h) by (apply final_hdr_clean, clean_idem).
  assert (L : lower h = h) by (apply final_hdr_lower, lower_of_clean).
  assert (S : strip h = h) by (rewrite <- C; apply strip_fixed, clean_trimmed).
  rewrite S, L, S, C. split; [unfold final_hdr at 1|]; unfold h; rewrite variant_final; reflexivity.
Qed.

(** ** Choice of extractor *)
Lemma first_hdr_some hdrs names h : first_hdr hdrs names = Some h <-> first_of hdrs names h.
Proof.
  unfold first_hdr, first_of. induction hdrs as [|g hdrs IH]; cbn.
  - split; [discriminate | intros ([|? ?] & b & E & _); discriminate].
  - destruct (smem g names) eqn:S.
    + apply smem_In in S. split.
      * intros [= <-]. exists [], hdrs. auto.
      * intros ([|y a] & b & E & Hi & Hf); cbn in E; injection E as <- E; [reflexivity|].
        inversion Hf; contradiction.
    + apply smem_not_In in S. rewrite IH. split.
      * intros (a & b & -> & Hi & Hf). exists (g :: a), b. auto.
      * intros ([|y a] & b & E & Hi & Hf); cbn in E; injection E as <- E; [contradiction|].
        inversion Hf; subst. exists a, b. auto.
Qed.
Lemma first_hdr_none hdrs names : first_hdr hdrs names = None <-> Forall (fun g => ~ In g names) hdrs.
Proof.
  unfold first_hdr. induction hdrs as [|g hdrs IH]; cbn; [split; auto|].
  destruct (smem g names) eqn:S.
  - apply smem_In in S. split; [discriminate | intros H; inversion H; contradiction].
  - apply smem_not_In in S. rewrite IH. split; [auto | intros H; inversion H; auto].
Qed.
Lemma first_hdr_exists hdrs names : (exists h, first_hdr hdrs names = Some h) <-> exists h, In h hdrs /\ In h names.
Proof.
  split.
  - intros (h & H). apply first_hdr_some in H as (a & b & -> & Hi & _). exists h. split; [apply in_elt | exact Hi].
  - intros (h & H1 & H2). destruct (first_hdr hdrs names) as [g|] eqn:E; [eauto|].
    apply first_hdr_none in E. rewrite Forall_forall in E. destruct (E h H1 H2).
Qed.

Lemma bytes_can hdrs : (exists m, can_apply BytesTableExtractor hdrs = Some m) <-> applies_bytes hdrs.
Proof.
  unfold can_apply, applies_bytes, has_hdr. cbn [ec_kind ec_key_hdrs ec_label_hdrs ec_content_hdrs BytesTableExtractor].
  pose proof (first_hdr_exists hdrs [h_bytes]) as K. pose proof (first_hdr_exists hdrs [h_attribute; h_description]) as L.
  pose proof (first_hdr_exists hdrs [h_description]) as D.
  destruct (first_hdr hdrs [h_bytes]) as [k|].
  - destruct (proj1 K (ex_intro _ _ eq_refl)) as (h & Hh & [<- | []]).
    destruct (first_hdr hdrs [h_description]) as [d|].
    + destruct (proj1 D (ex_intro _ _ eq_refl)) as (h' & Hh' & [<- | []]).
      destruct (first_hdr hdrs [h_attribute; h_description]) as [l|].
      * split; [intros _; split; assumption | eauto].
      * exfalso. destruct (proj2 L) as (? & ?); [|discriminate]. exists h_description. split; [exact Hh' | right; left; reflexivity].
    + destruct (first_hdr hdrs [h_attribute; h_description]); (split; [intros (m & Hm); discriminate|]);
        intros [_ Hd]; destruct (proj2 D) as (? & ?); try discriminate; exists h_description; (split; [exact Hd | left; reflexivity]).
  - split; [intros (m & Hm); discriminate|].
    intros [Hb _]. destruct (proj2 K) as (? & ?); [|discriminate]. exists h_bytes. split; [exact Hb | left; reflexivity].
Qed.

Lemma bits_can hdrs : (exists m, can_apply BitsTableExtractor hdrs = Some m) <-> applies_bits hdrs.
Proof.
  unfold can_apply, applies_bits, has_hdr. cbn [ec_kind ec_key_hdrs ec_label_hdrs ec_content_hdrs BitsTableExtractor].
  pose proof (first_hdr_exists hdrs [h_bits]) as K. pose proof (first_hdr_exists hdrs [h_attribute; h_description]) as L.
  pose proof (first_hdr_exists hdrs [h_description]) as D.
  destruct (first_hdr hdrs [h_bits]) as [k|].
  - destruct (proj1 K (ex_intro _ _ eq_refl)) as (h & Hh & [<- | []]).
    destruct (first_hdr hdrs [h_description]) as [d|].
    + destruct (proj1 D (ex_intro _ _ eq_refl)) as (h' & Hh' & [<- | []]).
      destruct (first_hdr hdrs [h_attribute; h_description]) as [l|].
      * split; [intros _; split; assumption | eauto].
      * exfalso. destruct (proj2 L) as (? & ?); [|discriminate]. exists h_description. split; [exact Hh' | right; left; reflexivity].
    + destruct (first_hdr hdrs [h_attribute; h_description]); (split; [intros (m & Hm); discriminate|]);
        intros [_ Hd]; destruct (proj2 D) as (? & ?); try discriminate; exists h_description; (split; [exact Hd | left; reflexivity]).
  - split; [intros (m & Hm); discriminate|].
    intros [Hb _]. destruct (proj2 K) as (? & ?); [|discriminate]. exists h_bits. split; [exact Hb | left; reflexivity].
Qed.

Lemma values_can hdrs : (exists m, can_apply ValueTableExtractor hdrs = Some m) <-> applies_values hdrs.
Proof.
  set (KH := [h_value; h_values]). set (LH := [h_attribute; h_definition; h_description; h_power_scope]).
  set (DH := [h_definition; h_description; h_power_scope]).
  assert (KE : (exists h, In h hdrs /\ In h KH) <-> (has_hdr hdrs "value" \/ has_hdr hdrs "values")).
  { unfold has_hdr. split.
    - intros (h & Hh & [<- | [<- | []]]); auto.
    - intros [H | H]; eexists; (split; [exact H|]); [left | right; left]; reflexivity. }
  assert (DE : (exists h, In h hdrs /\ In h DH)
      <-> (has_hdr hdrs "definition" \/ has_hdr hdrs "description" \/ has_hdr hdrs "power scope")).
  { unfold has_hdr. split.
    - intros (h & Hh & [<- | [<- | [<- | []]]]); auto.
    - intros [H | [H | H]]; eexists; (split; [exact H|]); [left | right; left | right; right; left]; reflexivity. }
  unfold can_apply. cbn [ec_kind ec_key_hdrs ec_label_hdrs ec_content_hdrs ValueTableExtractor].
  fold KH LH DH.
  pose proof (first_hdr_exists hdrs KH) as K. pose proof (first_hdr_exists hdrs LH) as L.
  pose proof (first_hdr_exists hdrs DH) as D. rewrite KE in K. rewrite DE in D.
  destruct (first_hdr hdrs DH) as [d|] eqn:ED.
  - (* content column present: label column too *)
    assert (HD := proj1 D (ex_intro _ _ eq_refl)).
    assert (exists l, first_hdr hdrs LH = Some l) as (l & EL).
    { apply L. apply DE in HD as (h & H1 & H2). exists h. split; [exact H1 | right; exact H2]. }
    rewrite EL. destruct (first_hdr hdrs KH) as [k|] eqn:EK.
    + split; [|eauto]. intros _. left. split; [apply K; eauto | exact HD].
    + split; [intros (m & Hm); discriminate|].
      intros [[Hk _] | (o & _ & _ & Ho)]; exfalso.
      * apply K in Hk as (? & ?). discriminate.
      * assert (has_hdr hdrs "value") by (destruct Ho as [-> | [-> _]]; unfold has_hdr; cbn; auto).
        destruct (proj2 K) as (? & ?); [auto | discriminate].
  - destruct (first_hdr hdrs KH) as [k|] eqn:EK.
    + assert (G : match first_hdr hdrs LH with Some _ | None =>
        if (N.of_nat (List.length hdrs) =? 2) && seqb k h_value then
            match find (fun h => negb (seqb h h_value)) hdrs with
            | Some [] => None | Some o => Some (mkMap k o o) | None => None end else None end
        = (if (N.of_nat (List.length hdrs) =? 2) && seqb k h_value then
            match find (fun h => negb (seqb h h_value)) hdrs with
            | Some [] => None | Some o => Some (mkMap k o o) | None => None end else None))
        by (destruct (first_hdr hdrs LH); reflexivity).
      assert (G2 : (exists m, (if (N.of_nat (List.length hdrs) =? 2) && seqb k h_value then
            match find (fun h => negb (seqb h h_value)) hdrs with
            | Some [] => None | Some o => Some (mkMap k o o) | None => None end else None) = Some m) <-> applies_values hdrs).
      { clear G. split.
        - intros (m & Hm). destruct ((N.of_nat (List.length hdrs) =? 2) && seqb k h_value) eqn:E; [|discriminate].
          apply andb_true_iff in E as [E1 E2]. apply seqb_eq in E2. subst k.
          destruct hdrs as [|a [|b [|c r]]]; try discriminate E1; [|cbn [List.length] in E1; lia].
          clear E1. right. unfold first_hdr in EK. cbn [find] in Hm, EK.
          destruct (seqb_spec a h_value) as [-> | Na]; cbn [negb] in Hm.
          + destruct (seqb_spec b h_value) as [-> | Nb]; cbn [negb] in Hm; [discriminate|].
            destruct b as [|b0 b]; [discriminate|]. exists (b0 :: b). split; [discriminate|]. split; [exact Nb|]. left. reflexivity.
          + destruct (smem a KH) eqn:Sa; [injection EK as ->; congruence|].
            destruct a as [|a0 a]; [discriminate|]. exists (a0 :: a). split; [discriminate|]. split; [exact Na|]. right.
            destruct (smem b KH); [|discriminate]. injection EK as ->. split; [reflexivity|].
            intros Ev. rewrite Ev in Sa. discriminate.
        - intros [[_ Hd] | (o & No & Nv & Ho)].
          + apply D in Hd as (? & ?). discriminate.
          + destruct Ho as [-> | [-> Nvs]].
            * unfold first_hdr in EK. cbn in EK. injection EK as <-. cbn [List.length find]. rewrite seqb_refl. cbn.
              apply seqb_neq in Nv. change (utf8 "value") with h_value in Nv. rewrite Nv. cbn.
              destruct o; [congruence | eauto].
            * unfold first_hdr in EK. cbn [find] in EK.
              assert (So : smem o KH = false).
              { apply smem_not_In. intros [<- | [<- | []]]; [apply Nv | apply Nvs]; reflexivity. }
              rewrite So in EK. cbn in EK. injection EK as <-. cbn [List.length find].
              apply seqb_neq in Nv. change (utf8 "value") with h_value in Nv. rewrite Nv. cbn.
              destruct o; [congruence | eauto]. }
      rewrite <- G2. destruct (first_hdr hdrs LH); reflexivity.
    + split; [intros (m & Hm); discriminate|].
      intros [[Hk _] | (o & _ & _ & Ho)]; exfalso.
      * apply K in Hk as (? & ?). discriminate.
      * assert (has_hdr hdrs "value") by (destruct Ho as [-> | [-> _]]; unfold has_hdr; cbn; auto).
        destruct (proj2 K) as (? & ?); [auto | discriminate].
Qed.

Lemma can_dec c hdrs : {m | can_apply c hdrs = Some m} + {can_apply c hdrs = None}.
Proof. destruct (can_apply c hdrs); [left; eauto | right; reflexivity]. Qed.

(** ** Columns *)
Lemma col_index_last hdrs h : forall n acc,
  (In h hdrs -> exists k, col_index hdrs h n acc = Some (n + k)%nat /\ last_position hdrs h k)
  /\ (~ In h hdrs -> col_index hdrs h n acc = acc).
Proof.
  induction hdrs as [|g hdrs IH]; intros n acc; cbn [col_index].
  - split; [intros [] | reflexivity].
  - split.
    + intros Hin. destruct (in_dec str_eq_dec h hdrs) as [I | I].
      * destruct (proj1 (IH (S n) (if seqb g h then Some n else acc)) I) as (k & E & (a & b & -> & L & Nb)).
        exists (S k). split; [rewrite E; f_equal; lia|]. exists (g :: a), b. cbn. auto.
      * destruct Hin as [-> | Hin]; [|contradiction].
        rewrite (proj2 (IH (S n) (if seqb h h then Some n else acc)) I), seqb_refl.
        exists 0%nat. split; [f_equal; lia|]. exists [], hdrs. auto.
    + intros Hn. rewrite (proj2 (IH _ _)) by (intros H; apply Hn; right; exact H).
      destruct (seqb_spec g h) as [->|]; [exfalso; apply Hn; left; reflexivity | reflexivity].
Qed.

Lemma col_index_spec hdrs h k : col_index hdrs h 0 None = Some k <-> last_position hdrs h k.
Proof.
  destruct (col_index_last hdrs h 0 None) as [A B]. split.
  - intros E. destruct (in_dec str_eq_dec h hdrs) as [I | I].
    + destruct (A I) as (k' & E' & L). rewrite E' in E. injection E as <-. exact L.
    + rewrite (B I) in E. discriminate.
  - intros (a & b & -> & L & Nb). destruct A as (k' & E' & (a' & b' & Eq & L' & Nb')); [apply in_elt|].
    rewrite E'. f_equal. cbn. subst.
    assert (G : forall a a' b b', a ++ h :: b = a' ++ h :: b' -> ~ In h b -> ~ In h b' -> a = a').
    { clear. induction a as [|x a IH]; intros [|y a'] b b' E Nb Nb'; cbn in E; [reflexivity | | |]; injection E as E1 E2.
      - exfalso. apply Nb. rewrite E2. apply in_elt.
      - exfalso. apply Nb'. rewrite <- E2. apply in_elt.
      - subst. f_equal. eapply IH; eauto. }
    rewrite (G a a' b b' Eq Nb Nb'). reflexivity.
Qed.

(** All columns of an accepted mapping exist. *)
Lemma can_apply_cols c hdrs mp : can_apply c hdrs = Some mp ->
  In (mp_key mp) hdrs /\ In (mp_label mp) hdrs /\ In (mp_content mp) hdrs.
Proof.
  unfold can_apply. intros H.
  assert (F : forall names h, first_hdr hdrs names = Some h -> In h hdrs).
  { intros names h E. apply first_hdr_some in E as (a & b & -> & _). apply in_elt. }
  destruct (first_hdr hdrs (ec_key_hdrs c)) as [k|] eqn:EK; [|discriminate].
  assert (FB : match ec_kind c with
      | EKStruct _ => None
      | EKValues => if (N.of_nat (List.length hdrs) =? 2) && seqb k h_value then
            match find (fun h => negb (seqb h h_value)) hdrs with
            | Some [] => None | Some o => Some (mkMap k o o) | None => None end else None end = Some mp ->
      In (mp_key mp) hdrs /\ In (mp_label mp) hdrs /\ In (mp_content mp) hdrs).
  { destruct (ec_kind c); [discriminate|]. destruct (_ && _); [|discriminate].
    destruct (find _ hdrs) as [[|o0 o]|] eqn:Fd; try discriminate. intros [= <-]. cbn.
    apply find_some in Fd as [Fd _]. split; [eapply F; exact EK | auto]. }
  destruct (first_hdr hdrs (ec_label_hdrs c)) as [l|] eqn:EL.
  - destruct (first_hdr hdrs (ec_content_hdrs c)) as [d|] eqn:ED.
    + injection H as <-. cbn. repeat split; eapply F; eassumption.
    + destruct (ec_kind c) eqn:EKd in H, FB; apply FB; exact H.
  - destruct (ec_kind c) eqn:EKd in H, FB; apply FB; exact H.
Qed.

Lemma run_extractor_some parse P m tbl hdrs c mp :
  can_apply c hdrs = Some mp ->
  exists k l d, last_position hdrs (mp_key mp) k /\ last_position hdrs (mp_label mp) l
    /\ last_position hdrs (mp_content mp) d
    /\ run_extractor parse P m tbl hdrs c mp
       = Some (match ec_kind c with
               | EKStruct sk => struct_call parse (mkX c m k l d) sk tbl
               | EKValues => value_call parse (p_label_overrides P) (mkX c m k l d) tbl
               end).
Proof.
  intros H. destruct (can_apply_cols c hdrs mp H) as (I1 & I2 & I3).
  destruct (proj1 (col_index_last hdrs (mp_key mp) 0 None) I1) as (k & Ek & Lk).
  destruct (proj1 (col_index_last hdrs (mp_label mp) 0 None) I2) as (l & El & Ll).
  destruct (proj1 (col_index_last hdrs (mp_content mp) 0 None) I3) as (d & Ed & Ld).
  exists k, l, d. repeat split; auto. unfold run_extractor. rewrite Ek, El, Ed. reflexivity.
Qed.
