(** Proofs about the checks on finished field lists (for Prop_Validate.v). *)
From Coq Require Import NArith ZArith List Bool String Lia ZifyBool.
From Verif Require Import PyStr PyStrFacts Regex Regexes Xml Json Lint RowIter
  Helpers Extract MFacts SpecFields.
Import ListNotations.
Local Open Scope list_scope.
Local Open Scope N_scope.
Local Open Scope m_scope.

(** ** field_range *)
Lemma field_range_none f : field_range f = None <-> ~ ranged f.
Proof.
  unfold field_range, ranged. destruct (seqb_spec (sf_label f) ELLIPSIS) as [E | E].
  - split; [|reflexivity]. intros _ [H _]. apply H. exact E.
  - destruct (sf_range f) as [lo hi | lo hi | s]; split; intros H; try discriminate; try reflexivity.
    + exfalso. apply H. split; [exact E | discriminate].
    + exfalso. apply H. split; [exact E | discriminate].
    + intros [_ H2]. apply (H2 s). reflexivity.
Qed.

Lemma field_range_some f r : field_range f = Some r -> ranged f /\ sf_range f = r.
Proof.
  unfold field_range, ranged. destruct (seqb_spec (sf_label f) ELLIPSIS) as [E | E]; [discriminate|].
  destruct (sf_range f) as [lo hi | lo hi | s]; intros [= <-]; repeat split; try exact E; discriminate.
Qed.

Lemma ranged_dec f : ranged f \/ ~ ranged f.
Proof.
  destruct (field_range f) eqn:E.
  - left. apply field_range_some in E. tauto.
  - right. apply field_range_none. exact E.
Qed.

Lemma numeric_field_range f lo hi : numeric f lo hi <-> field_range f = Some (RInt lo hi).
Proof.
  split.
  - intros [H1 H2]. unfold field_range. destruct (seqb_spec (sf_label f) ELLIPSIS) as [E | E].
    + contradiction.
    + rewrite H2. reflexivity.
  - intros H. apply field_range_some in H as [[H1 _] H2]. split; assumption.
Qed.

Lemma low_int_some f r a : field_range f = Some r -> low_int r = Some a -> exists h, numeric f a h.
Proof.
  intros H1 H2. destruct r as [lo hi | lo hi | s]; try discriminate. injection H2 as <-.
  exists hi. apply numeric_field_range. exact H1.
Qed.

(** ** Row order *)
Definition below_first (p : range) (fs : list sfield) : Prop :=
  exists mid f after a b h, fs = mid ++ f :: after /\ Forall ranged mid
    /\ low_int p = Some a /\ numeric f b h /\ (b < a)%Z.

Definition later_stretch (fs : list sfield) : Prop :=
  exists l0 g fs', fs = l0 ++ g :: fs' /\ ~ ranged g /\ out_of_order fs'.

Lemma out_of_order_prefix l0 g fs :
  ~ ranged g -> out_of_order fs -> out_of_order (l0 ++ g :: fs).
Proof.
  intros Hg (before & first & mid & f & after & a & b & ha & hb & E & Hb & R).
  exists (l0 ++ g :: before), first, mid, f, after, a, b, ha, hb.
  split; [rewrite E, <- app_assoc; reflexivity|]. split; [|exact R]. right.
  destruct Hb as [-> | (l & g' & -> & Hg')].
  - exists l0, g. auto.
  - exists (l0 ++ g :: l), g'. rewrite <- app_assoc. auto.
Qed.

Lemma out_of_order_unranged f r : ~ ranged f -> (out_of_order (f :: r) <-> out_of_order r).
Proof.
  intros Hf. split; [|apply (out_of_order_prefix [] f r Hf)].
  intros (before & first & mid & g & after & a & b & ha & hb & E & Hb & Hm & N1 & N2 & L).
  destruct before as [|f' before].
  - cbn in E. injection E as -> ->. exfalso. apply Hf.
    apply numeric_field_range, field_range_some in N1. tauto.
  - cbn in E. injection E as <- ->. exists before, first, mid, g, after, a, b, ha, hb.
    split; [reflexivity|]. split; [|auto].
    destruct Hb as [? | (l & g' & E & Hg')]; [discriminate|].
    destruct l as [|y l]; cbn in E.
    + injection E as <- ->. left; reflexivity.
    + injection E as <- ->. right; eauto.
Qed.

Lemma out_of_order_ranged f r p :
  field_range f = Some p -> (out_of_order (f :: r) <-> below_first p r \/ later_stretch r).
Proof.
  intros Hf. pose proof (field_range_some f p Hf) as [Rf Ef]. split.
  - intros (before & first & mid & g & after & a & b & ha & hb & E & Hb & Hm & N1 & N2 & L).
    destruct before as [|f' before].
    + cbn in E. injection E as -> ->. left.
      exists mid, g, after, a, b, hb. repeat split; auto; try apply N2.
      apply numeric_field_range in N1. rewrite N1 in Hf. injection Hf as <-. reflexivity.
    + cbn in E. injection E as <- ->. right.
      destruct Hb as [? | (l & g' & E & Hg')]; [discriminate|].
      destruct l as [|y l]; cbn in E.
      * injection E as -> ->. contradiction.
      * injection E as <- ->. exists l, g', (first :: mid ++ g :: after).
        split; [rewrite <- app_assoc; reflexivity|]. split; [exact Hg'|].
        exists [], first, mid, g, after, a, b, ha, hb. repeat split; auto; try apply N1; try apply N2.
  - intros [(mid & g & after & a & b & h & -> & Hm & La & Nb & L) | (l0 & g & fs' & -> & Hg & Ho)].
    + destruct (low_int_some f p a Hf La) as (ha & Na).
      exists [], f, mid, g, after, a, b, ha, h. repeat split; auto; try apply Na; try apply Nb.
    + apply (out_of_order_prefix (f :: l0) g fs' Hg Ho).
Qed.

Lemma order_loop_spec fs :
  (order_loop None fs = true <-> out_of_order fs)
  /\ forall p, order_loop (Some p) fs = true <-> below_first p fs \/ later_stretch fs.
Proof.
  induction fs as [|f r [IH1 IH2]].
  - split.
    + cbn. split; [discriminate|]. intros (before & first & mid & g & after & a & b & ha & hb & E & _).
      destruct before; discriminate.
    + intros p. cbn. split; [discriminate|].
      intros [(mid & g & after & a & b & h & E & _) | (l0 & g & fs' & E & _)];
        [destruct mid | destruct l0]; discriminate.
  - destruct (field_range f) as [cur|] eqn:Ef; cbn [order_loop]; rewrite Ef.
    + split.
      * rewrite IH2. symmetry. apply out_of_order_ranged. exact Ef.
      * intros p. pose proof (field_range_some f cur Ef) as [Rf _].
        assert (Step : below_first p (f :: r) \/ later_stretch (f :: r) <->
                  (exists a b, low_int p = Some a /\ low_int cur = Some b /\ (b < a)%Z)
                  \/ (below_first p r \/ later_stretch r)).
        { split.
          - intros [(mid & g & after & a & b & h & E & Hm & La & Nb & L) | (l0 & g & fs' & E & Hg & Ho)].
            + destruct mid as [|m mid]; cbn in E; injection E as E1 E2; subst.
              * left. exists a, b. apply numeric_field_range in Nb. rewrite Nb in Ef. injection Ef as <-. auto.
              * right; left. inversion Hm; subst. exists mid, g, after, a, b, h. auto.
            + destruct l0 as [|m l0]; cbn in E; injection E as E1 E2; subst; [contradiction|].
              right; right. exists l0, g, fs'. auto.
          - intros [(a & b & La & Lb & L) | [(mid & g & after & a & b & h & E & Hm & La & Nb & L) | (l0 & g & fs' & E & Hg & Ho)]].
            + left. destruct (low_int_some f cur b Ef Lb) as (h & Nb).
              exists [], f, r, a, b, h. repeat split; auto; apply Nb.
            + left. exists (f :: mid), g, after, a, b, h. subst. repeat split; auto; apply Nb.
            + right. exists (f :: l0), g, fs'. subst. auto. }
        rewrite Step, <- IH2. clear Step.
        destruct (low_int p) as [a|]; [destruct (low_int cur) as [b|]; [destruct (b <? a)%Z eqn:E|]|].
        -- split; [intros _; left; exists a, b; repeat split; lia | reflexivity].
        -- split; [tauto|]. intros [(a' & b' & [= <-] & [= <-] & L) | H]; [lia | exact H].
        -- split; [tauto|]. intros [(a' & b' & _ & ? & L) | H]; [discriminate | exact H].
        -- split; [tauto|]. intros [(a' & b' & ? & _ & L) | H]; [discriminate | exact H].
    + assert (Hf : ~ ranged f) by (apply field_range_none; exact Ef). split.
      * rewrite IH1. symmetry. apply out_of_order_unranged. exact Hf.
      * intros p. rewrite IH1. split.
        -- intros H. right. exists [], f, r. auto.
        -- intros [(mid & g & after & a & b & h & E & Hm & La & Nb & L) | (l0 & g & fs' & E & Hg & Ho)].
           ++ destruct mid as [|m mid]; cbn in E; injection E as E1 E2; subst.
              ** exfalso. apply Hf. apply numeric_field_range, field_range_some in Nb. tauto.
              ** exfalso. inversion Hm; subst. contradiction.
           ++ destruct l0 as [|m l0]; cbn in E; injection E as E1 E2; subst; [exact Ho|].
              apply out_of_order_prefix; assumption.
Qed.

Lemma order_first f0 r : order_loop (field_range f0) (f0 :: r) = order_loop None (f0 :: r).
Proof.
  cbn [order_loop]. destruct (field_range f0) as [p|] eqn:E; [|reflexivity].
  destruct (low_int p); [|reflexivity]. rewrite Z.ltb_irrefl. reflexivity.
Qed.

(** ** The pair loop as a list of events *)

Definition lint_row (c : code) (x : xctx) (key : str) (ctx : list (str * json)) : event :=
  EvLint (mkLint c (x_fig x) (code_msg c) (Some key) ctx).

Definition dup_events (x : xctx) (before : list sfield) (f : sfield) : list event :=
  if negb (smem (sf_label f) [RESERVED; ELLIPSIS])
     && existsb (fun g => seqb (sf_label g) (sf_label f)) before
  then [lint_row L1002 x (range_row_key (sf_range f)) [(utf8 "label", JStr (sf_label f))]]
  else [].

Definition pair_events (x : xctx) (p f : sfield) : list event :=
  match field_range p, field_range f with
  | Some (RInt _ hi), Some (RInt lo _) =>
      if Z.leb lo hi then [lint_row T1001 x (str_of_Z lo) []]
      else if Z.ltb (hi + 1) lo then [lint_row T1002 x (str_of_Z lo) []]
      else []
  | _, _ => []
  end.

Fixpoint expected_struct (x : xctx) (before : list sfield) (p : sfield) (fs : list sfield)
  : list event :=
  match fs with
  | [] => []
  | f :: r => dup_events x before f ++ pair_events x p f ++ expected_struct x (f :: before) f r
  end.

Lemma pair_loop_spec x fs : x_fig x <> [] ->
  forall labels before prev p f,
    (forall l, smem l [RESERVED; ELLIPSIS] = false ->
       smem l labels = existsb (fun g => seqb (sf_label g) l) before) ->
    prev = field_range p ->
    pair_loop x labels prev fs f = (Ok tt, f, expected_struct x before p fs).
Proof.
  intros Hx. induction fs as [|g r IH]; intros labels before prev p f Hl ->; [reflexivity|].
  cbn [pair_loop expected_struct].
  set (labels' := if negb (smem (sf_label g) [RESERVED; ELLIPSIS]) then sf_label g :: labels else labels).
  assert (Hl' : forall l, smem l [RESERVED; ELLIPSIS] = false ->
       smem l labels' = existsb (fun h => seqb (sf_label h) l) (g :: before)).
  { intros l Pl. cbn [existsb]. rewrite <- Hl by exact Pl. unfold labels'.
    destruct (smem (sf_label g) [RESERVED; ELLIPSIS]) eqn:Pg; cbn [negb].
    - destruct (seqb_spec (sf_label g) l) as [E|E]; [congruence | reflexivity].
    - unfold smem at 1. cbn [existsb]. rewrite seqb_sym. reflexivity. }
  assert (Dup : (if negb (smem (sf_label g) [RESERVED; ELLIPSIS]) && smem (sf_label g) labels
                 then issue x L1002 (Some (range_row_key (sf_range g))) [(utf8 "label", JStr (sf_label g))]
                 else ret tt) f = (Ok tt, f, dup_events x before g)).
  { unfold dup_events. destruct (smem (sf_label g) [RESERVED; ELLIPSIS]) eqn:Pg; cbn [negb andb]; [reflexivity|].
    rewrite Hl by exact Pg. destruct (existsb _ before); [|reflexivity].
    unfold issue. rewrite add_issue_row by exact Hx. reflexivity. }
  rewrite (bind_ok _ _ _ _ _ _ Dup). clear Dup.
  destruct (seqb (sf_label g) ELLIPSIS) eqn:El.
  { assert (Fg : field_range g = None) by (unfold field_range; rewrite El; reflexivity).
    rewrite (IH labels' (g :: before) None g f Hl') by (symmetry; exact Fg).
    unfold pair_events. rewrite Fg. destruct (field_range p) as [[? ?|? ?|?]|]; reflexivity. }
  destruct (field_range g) as [cur|] eqn:Fg.
  - assert (Pair : (match field_range p with
             | Some p0 =>
                 match high_int p0, low_int cur with
                 | Some a, Some b =>
                     if Z.leb b a then issue x T1001 (Some (range_row_key cur)) []
                     else if negb (Z.eqb (a + 1) b)
                     then issue x T1002 (Some (range_row_key cur)) []
                     else ret tt
                 | _, _ => ret tt
                 end
             | None => ret tt
             end) f = (Ok tt, f, pair_events x p g)).
    { unfold pair_events. rewrite Fg.
      destruct (field_range p) as [[lp hp|? ?|?]|]; try reflexivity;
      destruct cur as [lc hc|? ?|?]; try reflexivity. cbn [high_int low_int range_row_key].
      destruct (lc <=? hp)%Z eqn:L1.
      - unfold issue. rewrite add_issue_row by exact Hx. reflexivity.
      - destruct (hp + 1 =? lc)%Z eqn:L2; cbn [negb].
        + replace (hp + 1 <? lc)%Z with false by lia. reflexivity.
        + replace (hp + 1 <? lc)%Z with true by lia.
          unfold issue. rewrite add_issue_row by exact Hx. reflexivity. }
    rewrite (bind_ok _ _ _ _ _ _ Pair).
    rewrite (IH labels' (g :: before) (Some cur) g f Hl') by (symmetry; exact Fg).
    reflexivity.
  - rewrite (IH labels' (g :: before) None g f Hl') by (symmetry; exact Fg).
    unfold pair_events. rewrite Fg. destruct (field_range p) as [[? ?|? ?|?]|]; reflexivity.
Qed.

Definition t1004 (x : xctx) : event :=
  EvLint (mkLint T1004 (x_fig x) (code_msg T1004) None []).

Definition expected_all (x : xctx) (fs : list sfield) : list event :=
  match fs with [] => [] | f0 :: r => expected_struct x [f0] f0 r end.

Lemma validate_struct_bad x fs f :
  x_fig x <> [] -> out_of_order fs -> validate_struct x fs f = (Ok tt, f, [t1004 x]).
Proof.
  intros Hx H. destruct fs as [|f0 [|f1 r]].
  - apply (proj1 (order_loop_spec [])) in H. discriminate.
  - apply (proj1 (order_loop_spec [f0])) in H. cbn in H. destruct (field_range f0); discriminate.
  - unfold validate_struct. rewrite order_first.
    apply (proj1 (order_loop_spec (f0 :: f1 :: r))) in H. rewrite H.
    unfold issue. apply add_issue_tbl; [exact Hx | reflexivity].
Qed.

Lemma validate_struct_good x fs f :
  x_fig x <> [] -> ~ out_of_order fs ->
  validate_struct x fs f = (Ok tt, f, expected_all x fs).
Proof.
  intros Hx H. destruct fs as [|f0 [|f1 r]]; [reflexivity | reflexivity|].
  unfold validate_struct. rewrite order_first.
  destruct (order_loop None (f0 :: f1 :: r)) eqn:E.
  { exfalso. apply H. apply order_loop_spec. exact E. }
  apply (pair_loop_spec x (f1 :: r) Hx [sf_label f0] [f0] _ f0 f); [|reflexivity].
  intros l _. cbn [smem existsb]. unfold smem. cbn [existsb]. rewrite seqb_sym. reflexivity.
Qed.

Lemma out_of_order_dec fs : out_of_order fs \/ ~ out_of_order fs.
Proof.
  destruct (order_loop None fs) eqn:E.
  - left. apply order_loop_spec. exact E.
  - right. intros H. apply order_loop_spec in H. congruence.
Qed.

(** ** Membership in the expected events *)
Lemma last_cons {A} (g p : A) a : last (g :: a) p = last a g.
Proof.
  revert g. induction a as [|y a IH]; intros g; [reflexivity|].
  change (last (g :: y :: a) p) with (last (y :: a) p). rewrite IH.
  symmetry. destruct a as [|z a]; [reflexivity|].
  change (last (y :: z :: a) g) with (last (z :: a) g).
  clear IH. revert z. induction a as [|w a IH]; intros z; [reflexivity|]. cbn in *. apply IH.
Qed.

Lemma expected_struct_In x fs : forall before p ev,
  In ev (expected_struct x before p fs) <->
  exists a f b, fs = a ++ f :: b /\
    (In ev (dup_events x (rev a ++ before) f)
     \/ In ev (pair_events x (last a p) f)).
Proof.
  induction fs as [|g r IH]; intros before p ev; cbn [expected_struct].
  - split; [intros [] | intros (a & f & b & E & _); destruct a; discriminate].
  - rewrite !in_app_iff, IH. split.
    + intros [H | [H | (a & f & b & -> & H)]].
      * exists [], g, r. auto.
      * exists [], g, r. auto.
      * exists (g :: a), f, b. split; [reflexivity|]. cbn [rev].
        rewrite <- app_assoc, last_cons. exact H.
    + intros (a & f & b & E & H). destruct a as [|y a]; cbn in E; injection E as <- ->.
      * cbn in H. tauto.
      * right; right. exists a, f, b. split; [reflexivity|]. cbn [rev] in H.
        rewrite <- app_assoc, last_cons in H. exact H.
Qed.

Lemma plain_smem l : smem l [RESERVED; ELLIPSIS] = false <-> plain l.
Proof.
  rewrite smem_not_In. unfold plain. cbn [In].
  change lbl_reserved with RESERVED. change lbl_ellipsis with ELLIPSIS.
  split; [intros H; split; intros E; apply H; auto | intros [H1 H2] [E | [E | []]]; auto].
Qed.

Lemma existsb_label before l :
  existsb (fun g => seqb (sf_label g) l) before = true
  <-> exists g, In g before /\ sf_label g = l.
Proof.
  rewrite existsb_exists. split; intros (g & H & E); exists g; split; auto; apply seqb_eq; exact E.
Qed.

Lemma dup_events_In x before f ev :
  In ev (dup_events x before f) <->
  plain (sf_label f) /\ (exists g, In g before /\ sf_label g = sf_label f)
  /\ ev = lint_row L1002 x (range_row_key (sf_range f)) [(utf8 "label", JStr (sf_label f))].
Proof.
  unfold dup_events. rewrite <- plain_smem, <- existsb_label.
  destruct (smem (sf_label f) [RESERVED; ELLIPSIS]); cbn [negb andb]; [split; [intros [] | intros [H _]; discriminate]|].
  destruct (existsb _ before); [|split; [intros [] | intros (_ & H & _); discriminate]].
  cbn. split; [intros [<- | []]; auto | intros (_ & _ & ->); auto].
Qed.

Lemma pair_events_In x p f ev :
  In ev (pair_events x p f) <->
  (overlap p f /\ ev = lint_row T1001 x (range_row_key (sf_range f)) [])
  \/ (gap p f /\ ev = lint_row T1002 x (range_row_key (sf_range f)) []).
Proof.
  unfold pair_events, overlap, gap.
  assert (N : forall q lo hi, numeric q lo hi -> field_range q = Some (RInt lo hi))
    by (intros q lo hi Hq; apply numeric_field_range; exact Hq).
  destruct (field_range p) as [[lp hp|? ?|?]|] eqn:Ep;
  try (split; [intros [] | intros [((a & b & c & d & H & _) & _) | ((a & b & c & d & H & _) & _)];
       apply N in H; congruence]).
  destruct (field_range f) as [[lf hf|? ?|?]|] eqn:Ef;
  try (split; [intros [] | intros [((a & b & c & d & _ & H & _) & _) | ((a & b & c & d & _ & H & _) & _)];
       apply N in H; congruence]).
  pose proof (field_range_some f _ Ef) as [_ Rf]. rewrite Rf. cbn [range_row_key].
  assert (Np : numeric p lp hp) by (apply numeric_field_range; exact Ep).
  assert (Nf : numeric f lf hf) by (apply numeric_field_range; exact Ef).
  destruct (lf <=? hp)%Z eqn:L1; [|destruct (hp + 1 <? lf)%Z eqn:L2]; cbn.
  - split.
    + intros [<- | []]. left. split; [exists lp, hp, lf, hf; repeat split; try apply Np; try apply Nf; lia | reflexivity].
    + intros [(_ & ->) | ((a & b & c & d & H1 & H2 & H3) & _)]; [auto|].
      apply N in H1, H2. rewrite Ep in H1. rewrite Ef in H2. injection H1 as <- <-. injection H2 as <- <-. lia.
  - split.
    + intros [<- | []]. right. split; [exists lp, hp, lf, hf; repeat split; try apply Np; try apply Nf; lia | reflexivity].
    + intros [((a & b & c & d & H1 & H2 & H3) & _) | (_ & ->)]; [|auto].
      apply N in H1, H2. rewrite Ep in H1. rewrite Ef in H2. injection H1 as <- <-. injection H2 as <- <-. lia.
  - split; [intros []|].
    intros [((a & b & c & d & H1 & H2 & H3) & _) | ((a & b & c & d & H1 & H2 & H3) & _)];
      apply N in H1, H2; rewrite Ep in H1; rewrite Ef in H2; injection H1 as <- <-; injection H2 as <- <-; lia.
Qed.

(** All events of a checked list that is in order. *)
Lemma expected_all_In x fs ev :
  In ev (expected_all x fs) <->
  (exists a f b, fs = a ++ f :: b /\ plain (sf_label f)
     /\ (exists g, In g a /\ sf_label g = sf_label f)
     /\ ev = lint_row L1002 x (range_row_key (sf_range f)) [(utf8 "label", JStr (sf_label f))])
  \/ (exists a p f b, fs = a ++ p :: f :: b /\ overlap p f
     /\ ev = lint_row T1001 x (range_row_key (sf_range f)) [])
  \/ (exists a p f b, fs = a ++ p :: f :: b /\ gap p f
     /\ ev = lint_row T1002 x (range_row_key (sf_range f)) []).
Proof.
  destruct fs as [|f0 r]; cbn [expected_all].
  - split; [intros []|].
    intros [(a & f & b & E & _) | [(a & p & f & b & E & _) | (a & p & f & b & E & _)]]; destruct a; discriminate.
  - rewrite expected_struct_In. split.
    + intros (a & f & b & -> & [H | H]).
      * apply dup_events_In in H as (Pl & (g & Hg & Eg) & ->). left.
        exists (f0 :: a), f, b. split; [reflexivity|]. split; [exact Pl|]. split; [|reflexivity].
        exists g. split; [|exact Eg]. apply in_app_iff in Hg as [Hg | [Hg | []]].
        -- right. apply in_rev. exact Hg.
        -- left. exact Hg.
      * right. destruct (@exists_last _ (f0 :: a)) as (l & p & El); [discriminate|].
        assert (Lp : last a f0 = p).
        { rewrite <- (last_cons f0 f0 a), El. apply last_last. }
        rewrite Lp in H.
        assert (E : f0 :: a ++ f :: b = l ++ p :: f :: b).
        { change (f0 :: a ++ f :: b) with ((f0 :: a) ++ f :: b). rewrite El, <- app_assoc. reflexivity. }
        apply pair_events_In in H as [[H ->] | [H ->]]; [left | right]; exists l, p, f, b; auto.
    + intros [(a & f & b & E & Pl & (g & Hg & Eg) & ->) | H].
      * destruct a as [|y a]; [destruct Hg|]. cbn in E. injection E as <- ->.
        exists a, f, b. split; [reflexivity|]. left. apply dup_events_In. split; [exact Pl|].
        split; [|reflexivity]. exists g. split; [|exact Eg]. apply in_app_iff.
        destruct Hg as [-> | Hg]; [right; left; reflexivity | left; apply in_rev in Hg; exact Hg].
      * assert (K : forall a p f b, f0 :: r = a ++ p :: f :: b -> In ev (pair_events x p f) ->
                  exists a0 f1 b0, r = a0 ++ f1 :: b0 /\
                   (In ev (dup_events x (rev a0 ++ [f0]) f1) \/ In ev (pair_events x (last a0 f0) f1))).
        { intros a p f b E Hev. destruct a as [|y a]; cbn in E; injection E as <- ->.
          - exists [], f, b. split; [reflexivity|]. right. exact Hev.
          - exists (a ++ [p]), f, b. split; [rewrite <- app_assoc; reflexivity|]. right.
            rewrite last_last. exact Hev. }
        destruct H as [(a & p & f & b & E & H & ->) | (a & p & f & b & E & H & ->)];
          eapply K; try exact E; apply pair_events_In; auto.
Qed.

(** ** Contiguity *)
Definition all_numeric (fs : list sfield) : Prop :=
  Forall (fun f => exists lo hi, numeric f lo hi) fs.

Definition well_formed (f : sfield) : Prop :=
  exists lo hi, sf_range f = RInt lo hi /\ (lo <= hi)%Z.

Lemma contiguous_of_pairs fs :
  all_numeric fs ->
  (forall a p f b, fs = a ++ p :: f :: b -> ~ overlap p f /\ ~ gap p f) ->
  contiguous fs.
Proof.
  induction fs as [|p r IH]; intros Hn Hp; [constructor|].
  destruct r as [|q r]; [constructor|].
  inversion Hn as [|? ? (lp & hp & Np) Hn']; subst.
  inversion Hn' as [|? ? (lq & hq & Nq) _]; subst.
  apply (cont_step p q r lp hp lq hq); [apply Np | apply Nq | |].
  - destruct (Hp [] p q r eq_refl) as [H1 H2].
    destruct (Z.le_gt_cases lq hp) as [L | L].
    + exfalso. apply H1. exists lp, hp, lq, hq. auto.
    + destruct (Z.lt_ge_cases (hp + 1) lq) as [G | G]; [|lia].
      exfalso. apply H2. exists lp, hp, lq, hq. auto.
  - apply IH; [exact Hn'|]. intros a p' f b E. apply (Hp (p :: a) p' f b). rewrite E. reflexivity.
Qed.

(** In a contiguous list of non-empty ranges everything after the head lies above it. *)
Lemma contiguous_above p r lp hp :
  contiguous (p :: r) -> Forall well_formed r -> sf_range p = RInt lp hp ->
  Forall (fun g => exists lo hi, sf_range g = RInt lo hi /\ (hp < lo /\ lo <= hi)%Z) r.
Proof.
  revert p lp hp. induction r as [|q r IH]; intros p lp hp Hc Hw Hp; [constructor|].
  inversion Hc as [| |? ? ? lp' hp' lq hq E1 E2 E3 Hc']; subst.
  rewrite Hp in E1. injection E1 as <- <-.
  inversion Hw as [|? ? (lq' & hq' & E4 & L) Hw']; subst.
  rewrite E2 in E4. injection E4 as <- <-.
  constructor; [exists (hp + 1)%Z, hq; repeat split; auto; lia|].
  specialize (IH q (hp + 1)%Z hq Hc' Hw' E2).
  eapply Forall_impl; [|exact IH]. cbn. intros g (lo & hi & E & L1). exists lo, hi. split; [exact E | lia].
Qed.

Lemma contiguous_partition fs :
  contiguous fs -> Forall well_formed fs -> partition fs.
Proof.
  unfold partition. induction fs as [|p r IH]; intros Hc Hw first last_ lo0 hi0 lo1 hi1 r' E El E0 E1 z Hz.
  { discriminate. }
  injection E as <- <-.
  inversion Hw as [|? ? (lp & hp & Ep & Lp) Hw']; subst.
  rewrite Ep in E0. injection E0 as <- <-.
  destruct (Z.le_gt_cases z hp) as [L | L].
  - exists [], p, r. split; [reflexivity|]. split; [exists lp, hp; split; [exact Ep | lia]|].
    cbn. pose proof (contiguous_above p r lp hp Hc Hw' Ep) as Ha.
    eapply Forall_impl; [|exact Ha]. cbn. intros g (lo & hi & Eg & Lg) (lo' & hi' & Eg' & Lg').
    rewrite Eg in Eg'. injection Eg' as <- <-. lia.
  - destruct r as [|q r].
    { cbn in E1. rewrite Ep in E1. injection E1 as <- <-. lia. }
    inversion Hc as [| |? ? ? lp' hp' lq hq F1 F2 F3 Hc']; subst.
    rewrite Ep in F1. injection F1 as <- <-.
    assert (El' : last (q :: r) q = last (p :: q :: r) p).
    { rewrite !last_cons. reflexivity. }
    destruct (IH Hc' Hw' q (last (p :: q :: r) p) (hp + 1)%Z hq lo1 hi1 r eq_refl El' F2 E1 z ltac:(lia))
      as (a & f & b & E & Cf & Hab).
    exists (p :: a), f, b. rewrite E. split; [reflexivity|]. split; [exact Cf|].
    cbn. constructor; [|exact Hab].
    intros (lo' & hi' & Eg' & Lg'). rewrite Ep in Eg'. injection Eg' as <- <-. lia.
Qed.

Lemma out_of_order_cons_numeric fs :
  contiguous fs -> Forall well_formed fs -> ~ out_of_order fs.
Proof.
  intros Hc Hw (before & first & mid & f & after & a & b & ha & hb & E & _ & _ & Na & Nb & L).
  assert (Hc' : contiguous (first :: mid ++ f :: after)).
  { rewrite E in Hc. clear - Hc. induction before as [|y before IH]; [exact Hc|].
    apply IH. cbn in Hc. inversion Hc; subst; [destruct before; discriminate|]. assumption. }
  assert (Hw' : Forall well_formed (first :: mid ++ f :: after)).
  { rewrite E in Hw. apply Forall_app in Hw. tauto. }
  destruct Na as [_ Na]. inversion Hw' as [|? ? (lo & hi & Ew & Lw) Hw'']; subst.
  rewrite Na in Ew. injection Ew as <- <-.
  pose proof (contiguous_above first _ a ha Hc' Hw'' Na) as Ha.
  rewrite Forall_forall in Ha. destruct (Ha f) as (lo' & hi' & Ef & Lf).
  { apply in_app_iff. right. left. reflexivity. }
  destruct Nb as [_ Nb]. rewrite Nb in Ef. injection Ef as <- <-. lia.
Qed.

Lemma contiguous_pairs fs a p f b :
  contiguous fs -> fs = a ++ p :: f :: b -> ~ overlap p f /\ ~ gap p f.
Proof.
  intros Hc ->. assert (Hc' : contiguous (p :: f :: b)).
  { clear - Hc. induction a as [|y a IH]; [exact Hc|].
    apply IH. cbn in Hc. inversion Hc; subst; [destruct a; discriminate|]. assumption. }
  inversion Hc' as [| |? ? ? lp hp lq hq E1 E2 E3 _]; subst. split.
  - intros (lp' & hp' & lq' & hq' & [_ N1] & [_ N2] & L).
    rewrite E1 in N1. rewrite E2 in N2. injection N1 as <- <-. injection N2 as <- <-. lia.
  - intros (lp' & hp' & lq' & hq' & [_ N1] & [_ N2] & L).
    rewrite E1 in N1. rewrite E2 in N2. injection N1 as <- <-. injection N2 as <- <-. lia.
Qed.

(** ** Value tables *)
Definition vdup_events (x : xctx) (before : list vfield) (f : vfield) : list event :=
  if smem (vf_label f) [RESERVED; ELLIPSIS] then []
  else
    (if existsb (fun g => negb (smem (vf_label g) [RESERVED; ELLIPSIS]) && seqb (vf_label g) (vf_label f)) before
     then [lint_row L1002 x (vf_val f) [(utf8 "label", JStr (vf_label f))]] else [])
    ++ (if existsb (fun g => negb (smem (vf_label g) [RESERVED; ELLIPSIS]) && seqb (vf_val g) (vf_val f)) before
        then [lint_row V1002 x (vf_val f) []] else []).

Fixpoint expected_values (x : xctx) (before fs : list vfield) : list event :=
  match fs with
  | [] => []
  | f :: r => vdup_events x before f ++ expected_values x (f :: before) r
  end.

Lemma values_loop_spec x fs : x_fig x <> [] -> forall labels values before f,
  (forall l, smem l labels = existsb (fun g => negb (smem (vf_label g) [RESERVED; ELLIPSIS]) && seqb (vf_label g) l) before) ->
  (forall v, smem v values = existsb (fun g => negb (smem (vf_label g) [RESERVED; ELLIPSIS]) && seqb (vf_val g) v) before) ->
  values_loop x labels values fs f = (Ok tt, f, expected_values x before fs).
Proof.
  intros Hx. induction fs as [|g r IH]; intros labels values before f Hl Hv; [reflexivity|].
  cbn [values_loop expected_values]. unfold vdup_events.
  destruct (smem (vf_label g) [RESERVED; ELLIPSIS]) eqn:Pg.
  - apply IH; intros l; cbn [existsb]; rewrite Pg; cbn [negb andb orb]; auto.
  - assert (D1 : (if smem (vf_label g) labels
         then issue x L1002 (Some (vf_val g)) [(utf8 "label", JStr (vf_label g))]
         else ret tt) f = (Ok tt, f, if existsb (fun g0 => negb (smem (vf_label g0) [RESERVED; ELLIPSIS]) && seqb (vf_label g0) (vf_label g)) before
     then [lint_row L1002 x (vf_val g) [(utf8 "label", JStr (vf_label g))]] else [])).
    { rewrite Hl. destruct (existsb _ before); [|reflexivity].
      unfold issue. rewrite add_issue_row by exact Hx. reflexivity. }
    assert (D2 : (if smem (vf_val g) values then issue x V1002 (Some (vf_val g)) [] else ret tt) f
         = (Ok tt, f, if existsb (fun g0 => negb (smem (vf_label g0) [RESERVED; ELLIPSIS]) && seqb (vf_val g0) (vf_val g)) before
        then [lint_row V1002 x (vf_val g) []] else [])).
    { clear D1. rewrite Hv. destruct (existsb _ before); [|reflexivity].
      unfold issue. rewrite add_issue_row by exact Hx. reflexivity. }
    rewrite (bind_ok _ _ _ _ _ _ D1), (bind_ok _ _ _ _ _ _ D2).
    rewrite (IH _ _ (g :: before) f).
    + cbn [fst snd]. rewrite <- app_assoc. reflexivity.
    + intros l. unfold smem at 1. cbn [existsb]. rewrite Pg. cbn [negb andb]. rewrite seqb_sym. f_equal. apply Hl.
    + intros l. unfold smem at 1. cbn [existsb]. rewrite Pg. cbn [negb andb]. rewrite seqb_sym. f_equal. apply Hv.
Qed.

Lemma validate_values_spec x fs f :
  x_fig x <> [] -> validate_values x fs f = (Ok tt, f, expected_values x [] fs).
Proof.
  intros Hx. destruct fs as [|g [|h r]].
  - reflexivity.
  - cbn. unfold vdup_events. destruct (smem _ _); reflexivity.
  - unfold validate_values. apply values_loop_spec; [exact Hx | reflexivity | reflexivity].
Qed.

Lemma vdup_events_In x before f ev :
  In ev (vdup_events x before f) <->
  plain (vf_label f) /\
  ((exists g, In g before /\ plain (vf_label g) /\ vf_label g = vf_label f
      /\ ev = lint_row L1002 x (vf_val f) [(utf8 "label", JStr (vf_label f))])
   \/ (exists g, In g before /\ plain (vf_label g) /\ vf_val g = vf_val f
      /\ ev = lint_row V1002 x (vf_val f) [])).
Proof.
  unfold vdup_events. rewrite <- plain_smem.
  destruct (smem (vf_label f) [RESERVED; ELLIPSIS]) eqn:Pf; [split; [intros [] | intros [? _]; discriminate]|].
  assert (K : forall (sel : vfield -> str) v,
    existsb (fun g => negb (smem (vf_label g) [RESERVED; ELLIPSIS]) && seqb (sel g) v) before = true
    <-> exists g, In g before /\ plain (vf_label g) /\ sel g = v).
  { intros sel v. rewrite existsb_exists. split.
    - intros (g & Hg & H). apply andb_true_iff in H as [H1 H2]. exists g. split; [exact Hg|].
      split; [apply plain_smem, negb_true_iff, H1 | apply seqb_eq, H2].
    - intros (g & Hg & H1 & H2). exists g. split; [exact Hg|]. apply andb_true_iff.
      split; [apply negb_true_iff, plain_smem, H1 | apply seqb_eq, H2]. }
  rewrite in_app_iff. split.
  - intros H. split; [reflexivity|]. destruct H as [H | H].
    + left. destruct (existsb _ before) eqn:E; [|destruct H]. destruct H as [<- | []].
      apply K in E as (g & H1 & H2 & H3). exists g. auto.
    + right. destruct (existsb _ before) eqn:E; [|destruct H]. destruct H as [<- | []].
      apply K in E as (g & H1 & H2 & H3). exists g. auto.
  - intros [_ [(g & H1 & H2 & H3 & ->) | (g & H1 & H2 & H3 & ->)]].
    + left. rewrite (proj2 (K vf_label (vf_label f))); [left; reflexivity | exists g; auto].
    + right. rewrite (proj2 (K vf_val (vf_val f))); [left; reflexivity | exists g; auto].
Qed.

Lemma expected_values_In x fs : forall before ev,
  In ev (expected_values x before fs) <->
  exists a f b, fs = a ++ f :: b /\ In ev (vdup_events x (rev a ++ before) f).
Proof.
  induction fs as [|g r IH]; intros before ev; cbn [expected_values].
  - split; [intros [] | intros (a & f & b & E & _); destruct a; discriminate].
  - rewrite in_app_iff, IH. split.
    + intros [H | (a & f & b & -> & H)].
      * exists [], g, r. auto.
      * exists (g :: a), f, b. split; [reflexivity|]. cbn [rev]. rewrite <- app_assoc. exact H.
    + intros (a & f & b & E & H). destruct a as [|y a]; cbn in E; injection E as <- ->.
      * left. exact H.
      * right. exists a, f, b. split; [reflexivity|]. cbn [rev] in H. rewrite <- app_assoc in H. exact H.
Qed.

(** ** Exact lists per code *)
Lemma plainb_smem l : plainb l = negb (smem l [RESERVED; ELLIPSIS]).
Proof.
  unfold plainb, smem. cbn [existsb]. rewrite orb_false_r, negb_orb. reflexivity.
Qed.

Lemma of_code_app c a b : of_code c (a ++ b) = of_code c a ++ of_code c b.
Proof. apply filter_app. Qed.

Lemma pair_events_codes x p f :
  lints_of (pair_events x p f) =
  (if overlapping (p, f) then [row_lint T1001 (x_fig x) (field_key f) []] else [])
  ++ (if gapping (p, f) then [row_lint T1002 (x_fig x) (field_key f) []] else []).
Proof.
  unfold pair_events, overlapping, gapping, field_range, is_ellipsis, field_key.
  change lbl_ellipsis with ELLIPSIS.
  destruct (seqb (sf_label p) ELLIPSIS), (seqb (sf_label f) ELLIPSIS);
    destruct (sf_range p) as [lp hp|? ?|?]; try reflexivity;
    destruct (sf_range f) as [lf hf|? ?|?]; try reflexivity.
  cbn [negb andb].
  destruct (lf <=? hp)%Z eqn:L1.
  - replace (hp + 1 <? lf)%Z with false by lia. reflexivity.
  - destruct (hp + 1 <? lf)%Z; reflexivity.
Qed.

Lemma dup_events_codes x before f :
  lints_of (dup_events x before f) =
  if plainb (sf_label f) && existsb (fun g => seqb (sf_label g) (sf_label f)) before
  then [row_lint L1002 (x_fig x) (field_key f) [(utf8 "label", JStr (sf_label f))]] else [].
Proof.
  unfold dup_events. rewrite plainb_smem. unfold range_row_key, field_key.
  destruct (_ && _); reflexivity.
Qed.

Lemma expected_struct_codes x fs : forall before p,
  of_code T1001 (lints_of (expected_struct x before p fs))
  = map (fun pq => row_lint T1001 (x_fig x) (field_key (snd pq)) []) (filter overlapping (combine (p :: fs) fs))
  /\ of_code T1002 (lints_of (expected_struct x before p fs))
  = map (fun pq => row_lint T1002 (x_fig x) (field_key (snd pq)) []) (filter gapping (combine (p :: fs) fs))
  /\ of_code L1002 (lints_of (expected_struct x before p fs))
  = map (fun bf => row_lint L1002 (x_fig x) (field_key (snd bf)) [(utf8 "label", JStr (sf_label (snd bf)))])
        (filter repeated_label (with_earlier (rev before) fs))
  /\ forall e, In e (lints_of (expected_struct x before p fs)) ->
       l_code e = T1001 \/ l_code e = T1002 \/ l_code e = L1002.
Proof.
  induction fs as [|f r IH]; intros before p.
  - repeat split; try reflexivity. intros e [].
  - cbn [expected_struct combine with_earlier]. rewrite !lints_of_app, !of_code_app.
    rewrite pair_events_codes, dup_events_codes.
    destruct (IH (f :: before) f) as (I1 & I2 & I3 & I4).
    assert (Ex : existsb (fun g => seqb (sf_label g) (sf_label f)) before
               = existsb (fun g => seqb (sf_label g) (sf_label f)) (rev before)).
    { apply eq_true_iff_eq. rewrite !existsb_exists.
      split; intros (g & H1 & H2); exists g; split; auto; [apply in_rev in H1 | apply in_rev]; exact H1. }
    assert (RL : repeated_label (rev before, f)
       = plainb (sf_label f) && existsb (fun g => seqb (sf_label g) (sf_label f)) before)
      by (unfold repeated_label; rewrite Ex; reflexivity).
    cbn [filter]. rewrite RL. cbn [rev] in I3.
    repeat split.
    + rewrite I1. destruct (_ && _), (overlapping (p, f)), (gapping (p, f)); reflexivity.
    + rewrite I2. destruct (_ && _), (overlapping (p, f)), (gapping (p, f)); reflexivity.
    + rewrite I3. destruct (_ && _), (overlapping (p, f)), (gapping (p, f)); reflexivity.
    + intros e He. rewrite !in_app_iff in He. destruct He as [He | [[He | He] | He]].
      * destruct (_ && _); [destruct He as [<- | []]; auto | destruct He].
      * destruct (overlapping _); [destruct He as [<- | []]; auto | destruct He].
      * destruct (gapping _); [destruct He as [<- | []]; auto | destruct He].
      * apply I4. exact He.
Qed.

Lemma expected_all_codes x fs :
  of_code T1001 (lints_of (expected_all x fs))
  = map (fun pq => row_lint T1001 (x_fig x) (field_key (snd pq)) []) (filter overlapping (neighbours fs))
  /\ of_code T1002 (lints_of (expected_all x fs))
  = map (fun pq => row_lint T1002 (x_fig x) (field_key (snd pq)) []) (filter gapping (neighbours fs))
  /\ of_code L1002 (lints_of (expected_all x fs))
  = map (fun bf => row_lint L1002 (x_fig x) (field_key (snd bf)) [(utf8 "label", JStr (sf_label (snd bf)))])
        (filter repeated_label (with_earlier [] fs))
  /\ forall e, In e (lints_of (expected_all x fs)) ->
       l_code e = T1001 \/ l_code e = T1002 \/ l_code e = L1002.
Proof.
  destruct fs as [|f0 r].
  - repeat split; try reflexivity. intros e [].
  - destruct (expected_struct_codes x r [f0] f0) as (I1 & I2 & I3 & I4).
    unfold neighbours. cbn [tl expected_all with_earlier filter]. repeat split; auto.
    assert (R0 : repeated_label ([], f0) = false) by (unfold repeated_label; apply andb_false_r).
    rewrite R0. exact I3.
Qed.

Lemma vdup_events_codes x before f :
  lints_of (vdup_events x before f)
  = (if repeated_vlabel (before, f) then [row_lint L1002 (x_fig x) (vf_val f) [(utf8 "label", JStr (vf_label f))]] else [])
    ++ (if repeated_value (before, f) then [row_lint V1002 (x_fig x) (vf_val f) []] else []).
Proof.
  unfold vdup_events, repeated_vlabel, repeated_value. rewrite plainb_smem.
  destruct (smem (vf_label f) [RESERVED; ELLIPSIS]); cbn [negb andb]; [reflexivity|].
  rewrite lints_of_app. f_equal.
  - replace (existsb (fun g => plainb (vf_label g) && seqb (vf_label g) (vf_label f)) before)
      with (existsb (fun g => negb (smem (vf_label g) [RESERVED; ELLIPSIS]) && seqb (vf_label g) (vf_label f)) before).
    + destruct (existsb _ before); reflexivity.
    + induction before as [|g b IH]; [reflexivity|]. cbn [existsb]. rewrite IH, plainb_smem. reflexivity.
  - replace (existsb (fun g => plainb (vf_label g) && seqb (vf_val g) (vf_val f)) before)
      with (existsb (fun g => negb (smem (vf_label g) [RESERVED; ELLIPSIS]) && seqb (vf_val g) (vf_val f)) before).
    + destruct (existsb _ before); reflexivity.
    + induction before as [|g b IH]; [reflexivity|]. cbn [existsb]. rewrite IH, plainb_smem. reflexivity.
Qed.

Lemma existsb_rev {A} (p : A -> bool) l : existsb p (rev l) = existsb p l.
Proof.
  apply eq_true_iff_eq. rewrite !existsb_exists.
  split; intros (g & H1 & H2); exists g; split; auto; [apply in_rev | apply in_rev in H1]; exact H1.
Qed.

Lemma expected_values_codes x fs : forall before,
  of_code L1002 (lints_of (expected_values x before fs))
  = map (fun bf => row_lint L1002 (x_fig x) (vf_val (snd bf)) [(utf8 "label", JStr (vf_label (snd bf)))])
        (filter repeated_vlabel (with_earlier (rev before) fs))
  /\ of_code V1002 (lints_of (expected_values x before fs))
  = map (fun bf => row_lint V1002 (x_fig x) (vf_val (snd bf)) [])
        (filter repeated_value (with_earlier (rev before) fs))
  /\ forall e, In e (lints_of (expected_values x before fs)) -> l_code e = L1002 \/ l_code e = V1002.
Proof.
  induction fs as [|f r IH]; intros before.
  - repeat split; try reflexivity. intros e [].
  - cbn [expected_values with_earlier filter]. rewrite !lints_of_app, !of_code_app, vdup_events_codes.
    destruct (IH (f :: before)) as (I1 & I2 & I3). cbn [rev] in I1, I2.
    assert (R1 : repeated_vlabel (rev before, f) = repeated_vlabel (before, f))
      by (unfold repeated_vlabel; rewrite existsb_rev; reflexivity).
    assert (R2 : repeated_value (rev before, f) = repeated_value (before, f))
      by (unfold repeated_value; rewrite existsb_rev; reflexivity).
    rewrite R1, R2. repeat split.
    + rewrite I1. destruct (repeated_vlabel (before, f)), (repeated_value (before, f)); reflexivity.
    + rewrite I2. destruct (repeated_vlabel (before, f)), (repeated_value (before, f)); reflexivity.
    + intros e He. rewrite !in_app_iff in He. destruct He as [[He | He] | He].
      * destruct (repeated_vlabel (before, f)); [destruct He as [<- | []]; auto | destruct He].
      * destruct (repeated_value (before, f)); [destruct He as [<- | []]; auto | destruct He].
      * apply I3. exact He.
Qed.

(** ** From "no entry" to the absence of the defect *)
Lemma with_earlier_In {A} (fs : list A) : forall before a f b,
  fs = a ++ f :: b -> In (before ++ a, f) (with_earlier before fs).
Proof.
  induction fs as [|g r IH]; intros before a f b E; [destruct a; discriminate|].
  destruct a as [|y a]; cbn in E; injection E as <- ->; cbn.
  - left. rewrite app_nil_r. reflexivity.
  - right. replace (before ++ g :: a) with ((before ++ [g]) ++ a) by (rewrite <- app_assoc; reflexivity).
    eapply IH. reflexivity.
Qed.

Lemma neighbours_In {A} (fs : list A) a p q b :
  fs = a ++ p :: q :: b -> In (p, q) (neighbours fs).
Proof.
  intros ->. unfold neighbours. induction a as [|y a IH]; [left; reflexivity|].
  cbn. destruct a as [|z a]; cbn in *; right; exact IH.
Qed.

Lemma overlapping_overlap p q : overlapping (p, q) = true <-> overlap p q.
Proof.
  unfold overlapping, overlap, numeric, is_ellipsis.
  destruct (sf_range p) as [lp hp|? ?|?], (sf_range q) as [lq hq|? ?|?];
    try (split; [discriminate | intros (a & b & c & d & [_ H1] & [_ H2] & _); discriminate]).
  rewrite !andb_true_iff, !negb_true_iff, !seqb_neq, Z.leb_le. split.
  - intros [[H1 H2] H3]. exists lp, hp, lq, hq. auto.
  - intros (a & b & c & d & [H1 [= <- <-]] & [H2 [= <- <-]] & H3). auto.
Qed.

Lemma gapping_gap p q : gapping (p, q) = true <-> gap p q.
Proof.
  unfold gapping, gap, numeric, is_ellipsis.
  destruct (sf_range p) as [lp hp|? ?|?], (sf_range q) as [lq hq|? ?|?];
    try (split; [discriminate | intros (a & b & c & d & [_ H1] & [_ H2] & _); discriminate]).
  rewrite !andb_true_iff, !negb_true_iff, !seqb_neq, Z.ltb_lt. split.
  - intros [[H1 H2] H3]. exists lp, hp, lq, hq. auto.
  - intros (a & b & c & d & [H1 [= <- <-]] & [H2 [= <- <-]] & H3). auto.
Qed.

Lemma of_code_nil c l : (forall e, In e l -> l_code e <> c) -> of_code c l = [].
Proof.
  intros H. unfold of_code. induction l as [|e l IH]; [reflexivity|]. cbn.
  destruct (code_eqb (l_code e) c) eqn:E.
  - exfalso. apply (H e (or_introl eq_refl)). destruct (l_code e), c; try discriminate; reflexivity.
  - apply IH. intros e' He'. apply H. right. exact He'.
Qed.

Lemma map_nil_inv {A B} (f : A -> B) l : map f l = [] -> l = [].
Proof. destruct l; [reflexivity | discriminate]. Qed.

(** A checked list without T1001, T1002, T1004 and with proper ranges is contiguous and a
    partition. *)
Lemma clean_partition x fs f evs :
  x_fig x <> [] ->
  validate_struct x fs f = (Ok tt, f, evs) ->
  Forall (fun g => exists lo hi, numeric g lo hi /\ (lo <= hi)%Z) fs ->
  (forall e, In (EvLint e) evs -> l_code e <> T1001 /\ l_code e <> T1002 /\ l_code e <> T1004) ->
  contiguous fs /\ partition fs.
Proof.
  intros Hx E Hn Hno.
  destruct (out_of_order_dec fs) as [O | O].
  { rewrite (validate_struct_bad x fs f Hx O) in E. injection E as <-.
    destruct (Hno _ (or_introl eq_refl)) as (_ & _ & H). cbn in H. congruence. }
  rewrite (validate_struct_good x fs f Hx O) in E. injection E as <-.
  destruct (expected_all_codes x fs) as (I1 & I2 & _ & _).
  assert (Hc : contiguous fs).
  { apply contiguous_of_pairs.
    - eapply Forall_impl; [|exact Hn]. cbn. intros g (lo & hi & H & _). eauto.
    - intros a p q b Efs.
      assert (Hin := neighbours_In fs a p q b Efs). split; intros H.
      + apply overlapping_overlap in H.
        rewrite of_code_nil in I1 by (intros e He; apply In_lints_of in He; apply (Hno e He)).
        symmetry in I1. apply map_nil_inv in I1.
        assert (In (p, q) (filter overlapping (neighbours fs))) by (apply filter_In; auto).
        rewrite I1 in H0. destruct H0.
      + apply gapping_gap in H.
        rewrite of_code_nil in I2 by (intros e He; apply In_lints_of in He; apply (Hno e He)).
        symmetry in I2. apply map_nil_inv in I2.
        assert (In (p, q) (filter gapping (neighbours fs))) by (apply filter_In; auto).
        rewrite I2 in H0. destruct H0. }
  split; [exact Hc|]. apply contiguous_partition; [exact Hc|].
  eapply Forall_impl; [|exact Hn]. cbn. intros g (lo & hi & [_ H] & L). exists lo, hi. auto.
Qed.

Lemma contiguous_clean x fs f :
  x_fig x <> [] -> contiguous fs -> Forall well_formed fs ->
  exists evs, validate_struct x fs f = (Ok tt, f, evs)
    /\ forall e, In (EvLint e) evs -> l_code e = L1002.
Proof.
  intros Hx Hc Hw. pose proof (out_of_order_cons_numeric fs Hc Hw) as O.
  exists (expected_all x fs). split; [apply validate_struct_good; assumption|].
  intros e He. apply expected_all_In in He as [(a & g & b & _ & _ & _ & E) | [(a & p & q & b & E & H & _) | (a & p & q & b & E & H & _)]].
  - injection E as ->. reflexivity.
  - destruct (contiguous_pairs fs a p q b Hc E). contradiction.
  - destruct (contiguous_pairs fs a p q b Hc E). contradiction.
Qed.

Lemma distinct_struct_labels x fs :
  of_code L1002 (lints_of (expected_all x fs)) = [] ->
  forall a f b g c, fs = a ++ f :: b ++ g :: c -> plain (sf_label g) -> sf_label f <> sf_label g.
Proof.
  intros H a f b g c E Pg El. destruct (expected_all_codes x fs) as (_ & _ & I3 & _).
  rewrite I3 in H. apply map_nil_inv in H.
  assert (Hin : In ([] ++ (a ++ f :: b), g) (with_earlier [] fs)).
  { eapply with_earlier_In. rewrite E, <- app_assoc. reflexivity. }
  assert (In (a ++ f :: b, g) (filter repeated_label (with_earlier [] fs))).
  { apply filter_In. split; [exact Hin|]. unfold repeated_label.
    rewrite plainb_smem, (proj2 (plain_smem _) Pg). cbn [negb andb].
    apply existsb_label. exists f. split; [apply in_app_iff; right; left; reflexivity | exact El]. }
  rewrite H in H0. destruct H0.
Qed.

Lemma distinct_value_labels x fs :
  expected_values x [] fs = [] ->
  forall a f b g c, fs = a ++ f :: b ++ g :: c -> plain (vf_label f) -> plain (vf_label g) ->
    vf_label f <> vf_label g /\ vf_val f <> vf_val g.
Proof.
  intros H a f b g c E Pf Pg.
  assert (N : forall ev, ~ In ev (expected_values x [] fs)) by (rewrite H; intros ev []).
  assert (Hin : In f (rev (a ++ f :: b) ++ [])).
  { rewrite app_nil_r. apply in_rev. rewrite rev_involutive. apply in_app_iff. right. left. reflexivity. }
  split; intros El.
  - apply (N (lint_row L1002 x (vf_val g) [(utf8 "label", JStr (vf_label g))])).
    apply expected_values_In. exists (a ++ f :: b), g, c. split; [rewrite E, <- app_assoc; reflexivity|].
    apply vdup_events_In. split; [exact Pg|]. left. exists f. auto.
  - apply (N (lint_row V1002 x (vf_val g) [])).
    apply expected_values_In. exists (a ++ f :: b), g, c. split; [rewrite E, <- app_assoc; reflexivity|].
    apply vdup_events_In. split; [exact Pg|]. right. exists f. auto.
Qed.
