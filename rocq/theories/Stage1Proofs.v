(** What reading a docx document gives. *)
From Coq Require Import NArith ZArith List Bool String Lia ZifyBool ZifyNat.
From Verif Require Import PyStr PyStrFacts SpecText RowIter Docx SpecFmt SpecQuery SpecRuns SpecGrid SpecList SpecHtml SpecStage1.
From Verif Require Import QueryProofs RunProofs GridProofs ListProofs DocxTotal TableHtml Prop_Html TablesOnce.
Import ListNotations.
Local Open Scope string_scope.
Local Open Scope list_scope.

(** ** Cells *)

Lemma colour_of_iff tc o : cell_fill tc = o <-> colour_of tc o.
Proof.
  unfold cell_fill, colour_of, coloured, white. destruct (attr_first ["w:tcPr"; "w:shd"] "w:fill" tc) as [f|] eqn:A.
  - assert (V := proj1 (first_value_iff _ _ _ _) A).
    assert (D : forall g, first_value ["w:tcPr"; "w:shd"] "w:fill" tc g -> g = f) by (intros g V'; exact (first_value_det _ _ _ _ _ V' V)).
    destruct (Nat.eqb_spec (List.length f) 6) as [L|L]; cbn [andb].
    + destruct (seqb (lower f) (utf8 "ffffff")) eqn:W; cbn [negb].
      * apply seqb_eq in W. split; [intros <-; intros g (V' & _ & N); rewrite (D g V') in N; contradiction|].
        destruct o as [g|]; [|reflexivity]. intros (V' & _ & N). rewrite (D g V') in N. contradiction.
      * apply seqb_neq in W. split; [intros <-; auto|]. destruct o as [g|]; [intros (V' & _); f_equal; symmetry; exact (D g V')|].
        intros N. exfalso. apply (N f). auto.
    + split; [intros <-; intros g (V' & L' & _); rewrite (D g V') in L'; contradiction|].
      destruct o as [g|]; [|reflexivity]. intros (V' & L' & _). rewrite (D g V') in L'. contradiction.
  - assert (N := proj1 (no_value_iff _ _ _) A). split; [intros <- g (V & _); exact (N _ V)|].
    destruct o as [g|]; [|reflexivity]. intros (V & _). exfalso. exact (N _ V).
Qed.
Lemma grey_iff f : List.length f = 6%nat ->
  (seqb (firstn 2 f) (firstn 2 (skipn 2 f)) && seqb (firstn 2 (skipn 2 f)) (firstn 2 (skipn 4 f)) = true <-> grey f).
Proof.
  destruct f as [|c1 [|c2 [|c3 [|c4 [|c5 [|c6 [|c7 f]]]]]]]; try discriminate. intros _. cbn [firstn skipn]. rewrite andb_true_iff, !seqb_eq. split.
  - intros [[= -> ->] [= -> ->]]. eexists _, _. reflexivity.
  - intros (a & b & [= -> -> -> -> -> ->]). auto.
Qed.
Lemma cell_kind_iff tc tag : cell_tag tc = tag <-> cell_kind (cell_fill tc) tag.
Proof.
  unfold cell_tag, cell_kind. destruct (cell_fill tc) as [f|] eqn:F.
  - assert (L : List.length f = 6%nat) by (apply colour_of_iff in F; destruct F as (_ & L & _); exact L).
    destruct (seqb (firstn 2 f) _ && _) eqn:G.
    + apply (grey_iff f L) in G. split; [intros <-; left; eauto|]. intros [[-> _]|[-> N]]; [reflexivity|]. exfalso. exact (N f eq_refl G).
    + assert (NG : ~ grey f) by (intros X; apply (grey_iff f L) in X; congruence).
      split; [intros <-; right; split; [reflexivity | intros g [= <-]; exact NG]|].
      intros [[-> (g & [= <-] & X)]|[-> _]]; [contradiction | reflexivity].
  - split; [intros <-; right; split; [reflexivity | discriminate]|]. intros [[_ (f & X & _)]|[-> _]]; [discriminate | reflexivity].
Qed.

Lemma table_number_iff rows o : find_id rows = o <-> table_number rows o.
Proof.
  assert (H : forall n, find_id rows = Some n <-> has_number rows n).
  { intros n. rewrite C53_id. unfold has_number, numeral. split.
    - intros (es & sp & og & f & more & others & sps & mes & -> & -> & [N1 N2] & rest & E).
      exists (TC (utf8 "td") (HPar sps :: mes) sp og f), more, others, sps, mes, rest. repeat split; auto.
    - intros ([tg es sp og f] & more & others & sps & mes & rest & -> & T & E & N1 & N2 & X). cbn [tc_tag tc_elems] in T, E. subst.
      exists (HPar sps :: mes), sp, og, f, more, others, sps, mes. repeat split; auto. exists rest. exact X. }
  unfold table_number. destruct o as [n|]; [apply H|]. split.
  - intros E n X. apply H in X. congruence.
  - intros N. destruct (find_id rows) as [n|] eqn:E; [|reflexivity]. exfalso. apply (N n), H. reflexivity.
Qed.

(** ** The grid *)

Definition element_of (rows : list (list wcell)) (r x : nat) (g : gcell) : Prop :=
  exists r0 x0 c n, from_cell rows r x r0 x0 c /\ height rows r0 x0 n /\ g_cell g = wc_tc c
    /\ g_colspan g = Z.of_nat (wc_span c) /\ g_rowspan g = Z.of_nat n /\ g_left g = Z.of_nat x0 /\ g_top g = Z.of_nat r0.
Definition matches (rows : list (list wcell)) (mt : list (list (nat * gcell))) : Prop :=
  forall r, match nth_error rows r, nth_error mt r with
            | Some row, Some mrow => List.length mrow = columns row /\ forall x p, nth_error mrow x = Some p -> element_of rows r x (snd p)
            | None, None => True
            | _, _ => False
            end.

Lemma from_cell_det rows r x r0 x0 c r1 x1 c1 : from_cell rows r x r0 x0 c -> from_cell rows r x r1 x1 c1 -> r0 = r1 /\ x0 = x1 /\ c = c1.
Proof.
  intros H. revert r1 x1 c1. induction H as [r row x y c R B Y C|r row x y c r0 x0 c0 R B Y C F IH]; intros r1 x1 c1 H1.
  - inversion H1 as [? row' ? y' c' R' B' Y' C'|? row' ? y' c' ? ? ? R' B' Y' C' F']; subst; rewrite R in R'; injection R' as <-;
      destruct (begins_det _ _ _ _ _ _ B B' Y Y') as [<- <-]; [auto | congruence].
  - inversion H1 as [? row' ? y' c' R' B' Y' C'|? row' ? y' c' ? ? ? R' B' Y' C' F']; subst; rewrite R in R'; injection R' as <-;
      destruct (begins_det _ _ _ _ _ _ B B' Y Y') as [<- <-]; [congruence | exact (IH _ _ _ F')].
Qed.
Lemma height_det rows r x n m : height rows r x n -> height rows r x m -> n = m.
Proof.
  intros (N1 & N2 & N3) (M1 & M2 & M3). destruct (Nat.lt_trichotomy n m) as [L|[E|L]]; [|exact E|].
  - exfalso. apply N3, M2. lia.
  - exfalso. apply M3, N2. lia.
Qed.

Lemma grid_matches tbl rows mt : layout tbl rows -> aligned rows -> grid tbl = DOk mt -> matches rows mt.
Proof.
  intros LY AL GM. destruct (grid_aligned tbl rows LY AL) as (h & m & G & N & IV & AT). rewrite GM in G. injection G as ->.
  pose proof (layout_pos _ _ LY) as POS.
  destruct (accepted_facts rows h m POS N) as (FL & TR & POSN & V).
  assert (EL : forall r x i g, at_pos m r x = Some i -> nth_error h i = Some g -> exists r0 x0 c, from_cell rows r x r0 x0 c /\ g_cell g = wc_tc c
     /\ g_colspan g = Z.of_nat (wc_span c) /\ g_left g = Z.of_nat x0 /\ g_top g = Z.of_nat r0).
  { intros r. induction r as [r IH] using lt_wf_ind. intros x i g A Hg.
    destruct (proj1 (POSN r x) (ex_intro _ i A)) as (row & R & X).
    assert (PR : Forall (fun c => (1 <= wc_span c)%nat) row) by (rewrite Forall_forall in POS; apply POS; eapply nth_error_In; exact R).
    destruct (covering row x PR X) as (y & c & B & Y).
    destruct (covered rows h m IV TR POSN _ _ _ _ x R B Y) as (j & g' & P1 & P2 & Hg' & CS & GL & NC & CC).
    rewrite A in P1. injection P1 as <-. rewrite Hg in Hg'. injection Hg' as <-.
    destruct (wc_cont c) eqn:C.
    - destruct (CC eq_refl) as (r' & -> & P'). 
      assert (A' : at_pos m r' x = Some i).
      { apply (inv_pos _ _ _ IV) in A as (g1 & G1 & In1). rewrite Hg in G1. injection G1 as <-.
        apply (inv_pos _ _ _ IV) in P' as (g1 & G1 & In2). rewrite Hg in G1. injection G1 as <-.
        apply (inv_pos _ _ _ IV). exists g. split; [exact Hg|]. unfold inside in *. lia. }
      destruct (IH r' (Nat.lt_succ_diag_r r') x i g A' Hg) as (r0 & x0 & c0 & F & E1 & E2 & E3 & E4).
      exists r0, x0, c0. split; [eapply fc_above; eassumption|]. auto.
    - specialize (NC eq_refl). exists r, y, c. split; [eapply fc_own; eassumption|].
      destruct (inv_origin _ _ _ IV _ _ Hg) as (r0 & row0 & x0 & c0 & T0 & L0 & R0 & B0 & W0 & C0 & S0).
      assert (r0 = r) as -> by lia. assert (x0 = y) as -> by lia. rewrite R in R0. injection R0 as <-.
      assert (SP0 : (1 <= wc_span c0)%nat) by (destruct B0 as (a & b & -> & _); apply Forall_app in PR as [_ PR]; apply Forall_inv in PR; exact PR).
      destruct (begins_det row y y c c0 y B B0) as [_ <-]; [lia | lia|]. auto. }
  assert (EL2 : forall r x i g, at_pos m r x = Some i -> nth_error h i = Some g -> element_of rows r x g).
  { intros r x i g A Hg. destruct (EL r x i g A Hg) as (r0 & x0 & c & F & E1 & E2 & E3 & E4).
    exists r0, x0, c, (Z.to_nat (g_rowspan g)). split; [exact F|].
    assert (A0 : at_pos m r0 x0 = Some i).
    { apply (inv_pos _ _ _ IV) in A as (g1 & G1 & In1). rewrite Hg in G1. injection G1 as <-. destruct (inv_ok _ _ _ IV _ _ Hg) as [O1 O2].
      apply (inv_pos _ _ _ IV). exists g. split; [exact Hg|]. unfold inside in *. lia. }
    split; [apply (element_height rows h m r0 IV POS TR POSN x0 i g A0 Hg E4 E3)|]. destruct (inv_ok _ _ _ IV _ _ Hg) as [O1 O2].
    repeat split; auto. unfold g_rowspan in *. lia. }
  intros r. unfold matrix_of. rewrite nth_error_map. destruct (nth_error m r) as [ids|] eqn:M; cbn [option_map].
  - destruct (nth_error rows r) as [row|] eqn:R.
    + assert (LN : List.length ids = columns row).
      { clear - FL R M. revert r R M. induction FL as [|a b rows m L _ IH]; intros [|r] R M; try discriminate; cbn in R, M; [injection R as <-; injection M as <-; exact L | exact (IH r R M)]. }
      assert (VI : forall i, In i ids -> nth_error h i <> None) by (intros i I; apply V, in_concat; exists ids; split; [exact (nth_error_In _ _ M) | exact I]).
      assert (MAP : forall x p, nth_error (flat_map (fun i => match nth_error h i with Some g => [(i, g)] | None => [] end) ids) x = Some p <-> exists i, nth_error ids x = Some i /\ fst p = i /\ nth_error h i = Some (snd p)).
      { clear - VI. induction ids as [|i ids IH]; intros [|x] p; cbn [flat_map nth_error].
        - split; [discriminate | intros (i & X & _); discriminate].
        - split; [discriminate | intros (i & X & _); discriminate].
        - destruct (nth_error h i) as [g|] eqn:G; [|exfalso; exact (VI i (or_introl eq_refl) G)]. cbn [app nth_error]. split.
          + intros [= <-]. exists i. auto.
          + intros (j & [= <-] & E & X). destruct p as [pi pg]. cbn [fst snd] in *. congruence.
        - destruct (nth_error h i) as [g|] eqn:G; [|exfalso; exact (VI i (or_introl eq_refl) G)]. cbn [app nth_error]. apply IH. intros j J. apply VI. right. exact J. }
      split.
      * rewrite <- LN. clear - VI. induction ids as [|i ids IH]; [reflexivity|]. cbn [flat_map]. destruct (nth_error h i) as [g|] eqn:G; [|exfalso; exact (VI i (or_introl eq_refl) G)].
        cbn [app List.length]. f_equal. apply IH. intros j J. apply VI. right. exact J.
      * intros x p P. apply MAP in P as (i & P & _ & Hg). apply (EL2 r x i); [unfold at_pos; rewrite M; exact P | exact Hg].
    + exfalso. clear - FL R M. revert r R M. induction FL as [|a b rows m L _ IH]; intros [|r] R M; try discriminate. exact (IH r R M).
  - destruct (nth_error rows r) as [row|] eqn:R; [|exact Logic.I]. clear - FL R M. revert r R M. induction FL as [|a b rows m L _ IH]; intros [|r] R M; try discriminate. exact (IH r R M).
Qed.

(** ** Reading gives what the document means *)

Lemma skipn_nth {A} (l : list A) : forall n x, nth_error l n = Some x -> skipn n l = x :: skipn (S n) l.
Proof. induction l as [|a l IH]; intros [|n] x H; try discriminate; [injection H as <-; reflexivity | exact (IH n x H)]. Qed.
Lemma below_kid b e k : In e (below b) -> In k (w_kids e) -> In k (below b).
Proof.
  revert e. induction b as [b IH] using wsize_ind. intros e I K. rewrite below_kids in *. apply in_flat_map in I as (q & Q & I). apply in_flat_map. exists q. split; [exact Q|].
  destruct I as [->|I]; right; [apply kid_below; exact K | exact (IH q (kid_size _ _ Q) e I K)].
Qed.

Section Doc.
Variable d : docx.

Definition head_iff p l a i : list_head d p = DOk (l, a, i) <-> w_tag p = utf8 "w:p" /\ level_props d p l /\ list_level p i /\ exists n ls, list_number p n /\ numbered d n a ls.
Proof.
  unfold list_head. split.
  - destruct (is_tag "w:p" p) eqn:T; cbn [negb]; [|discriminate]. intros H. split; [apply is_tag_iff; exact T|].
    destruct (p_num_id p) as [n| |] eqn:N; cbn [dbind] in H; try discriminate. destruct (p_style d n) as [[a' ls]| |] eqn:ST; cbn [dbind] in H; try discriminate.
    destruct (p_ilvl p) as [i'| |] eqn:LV; cbn [dbind] in H; try discriminate. destruct (get_ilvl ls i') as [l'| |] eqn:G; cbn [dbind] in H; try discriminate.
    injection H as <- <- <-. split; [apply level_props_iff; exists n, a', ls, i'; auto|]. split; [apply list_level_iff; exact LV|].
    exists n, ls. split; [apply list_number_iff; exact N | apply numbered_iff; exact ST].
  - intros (T & LP & LV & n & ls & N & S). apply is_tag_iff in T. rewrite T. cbn [negb]. apply list_number_iff in N. apply numbered_iff in S. apply list_level_iff in LV.
    rewrite N. cbn [dbind]. rewrite S. cbn [dbind]. rewrite LV. cbn [dbind].
    apply level_props_iff in LP as (n' & a' & ls' & i' & N' & S' & LV' & G). assert (n' = n) as -> by congruence. assert (ls' = ls) as -> by congruence. assert (i' = i) as -> by congruence.
    rewrite G. reflexivity.
Qed.

Lemma elems_sound : forall f a i st its st', list_elems d f st a i = DOk (its, st') -> list_items d a i st its st'.
Proof.
  induction f as [|f IH]; intros a i st its st' H; cbn [list_elems] in H; [discriminate|].
  destruct st as [|p rest]; [injection H as <- <-; constructor; exact Logic.I|].
  destruct (is_tag "w:p" p) eqn:TG; cbn [negb] in H; [|injection H as <- <-; constructor; left; apply is_tag_false; exact TG].
  apply is_tag_iff in TG.
  destruct (is_list_p d p) as [[]| |] eqn:LP; cbn [dbind negb] in H; try discriminate; [|injection H as <- <-; constructor; right; left; apply not_listed_iff; exact LP].
  destruct (p_num_id p) as [n| |] eqn:N; cbn [dbind] in H; try discriminate. destruct (p_style d n) as [[b ls]| |] eqn:ST; cbn [dbind] in H; try discriminate.
  apply list_number_iff in N. apply numbered_iff in ST.
  destruct (Z.eqb_spec b a) as [->|NB]; cbn [negb] in H; [|injection H as <- <-; constructor; right; right; right; exists n, b, ls; auto].
  destruct (p_ilvl p) as [j| |] eqn:LV; cbn [dbind] in H; try discriminate. apply list_level_iff in LV.
  assert (PAR : list_par d p a j) by (split; [exact TG|]; split; [exists n, ls; auto | exact LV]).
  destruct (Z.ltb_spec i j) as [DEEP|ND].
  - destruct (list_head d p) as [[[l a'] j']| |] eqn:HD; cbn [dbind] in H; try discriminate. apply head_iff in HD as (_ & LPR & LV' & n' & ls' & N' & S').
    assert (PAR' : list_par d p a' j') by (split; [exact TG|]; split; [exists n', ls'; auto | exact LV']). destruct (list_level_det _ _ _ _ _ _ PAR PAR') as [<- <-].
    destruct (list_elems d f (p :: rest) a j) as [[sub st1]| |] eqn:E1; cbn [dbind] in H; try discriminate.
    destruct (list_elems d f st1 a i) as [[more st2]| |] eqn:E2; cbn [dbind] in H; try discriminate. injection H as <- <-.
    exact (li_sub d a i j p rest l sub st1 more st2 PAR DEEP LPR (IH _ _ _ _ _ E1) (IH _ _ _ _ _ E2)).
  - destruct (Z.ltb_spec j i) as [UP|NU]; [injection H as <- <-; constructor; right; right; left; exists j; auto|].
    assert (j = i) as -> by lia. destruct (parse_spans d p) as [sps| |] eqn:SP; cbn [dbind] in H; try discriminate.
    destruct (list_elems d f rest a i) as [[more st1]| |] eqn:E; cbn [dbind] in H; try discriminate. injection H as <- <-.
    apply li_item; [exact PAR | apply par_spans_iff; exact SP | exact (IH _ _ _ _ _ E)].
Qed.

(** A result, unless the fuel is not enough. *)
Definition gives {A} (r : dres A) (a : A) : Prop := r = DFuel \/ r = DOk a.
Lemma gives_bind {A B} (r : dres A) (f : A -> dres B) a b : gives r a -> gives (f a) b -> gives (dbind r f) b.
Proof. intros [->| ->] G; [left; reflexivity | exact G]. Qed.
Lemma gives_ok {A} (a : A) : gives (DOk a) a. Proof. right. reflexivity. Qed.

Lemma elems_complete a i st its st' : list_items d a i st its st' -> forall f, gives (list_elems d f st a i) (its, st').
Proof.
  assert (HEAD : forall p a' j, list_par d p a' j -> is_tag "w:p" p = true /\ is_list_p d p = DOk true /\ p_ilvl p = DOk j /\ exists n ls, p_num_id p = DOk n /\ p_style d n = DOk (a', ls)).
  { intros p a' j P. apply list_par_iff in P as (T & L & N & LV). split; [apply is_tag_iff; exact T|]. auto. }
  induction 1 as [i st E|i p st sps its st' P SP _ IH|i j p st l sub st1 its st2 P LT LP _ IH1 _ IH2]; intros [|f]; try (left; reflexivity); cbn [list_elems].
  - destruct st as [|p rest]; [apply gives_ok|]. cbn [ends_list] in E. destruct (is_tag "w:p" p) eqn:T; cbn [negb]; [|apply gives_ok].
    destruct E as [X|[X|[(j & P & X)|(n & b & ls & N & S & X)]]].
    + apply is_tag_iff in T. contradiction.
    + apply not_listed_iff in X. rewrite X. cbn [dbind negb]. apply gives_ok.
    + apply HEAD in P as (_ & L & LV & n & ls & N & S). rewrite L. cbn [dbind negb]. rewrite N. cbn [dbind]. rewrite S. cbn [dbind]. rewrite Z.eqb_refl. cbn [negb].
      rewrite LV. cbn [dbind]. destruct (Z.ltb_spec i j); [lia|]. destruct (Z.ltb_spec j i); [apply gives_ok | lia].
    + assert (L : is_list_p d p = DOk true) by (apply listed_iff; exists n; split; [exact N | exact (numbered_known _ _ _ _ S)]).
      apply list_number_iff in N. apply numbered_iff in S. rewrite L. cbn [dbind negb]. rewrite N. cbn [dbind]. rewrite S. cbn [dbind].
      destruct (Z.eqb_spec b a); [contradiction | cbn [negb]; apply gives_ok].
  - apply HEAD in P as (T & L & LV & n & ls & N & S). rewrite T, L. cbn [dbind negb]. rewrite N. cbn [dbind]. rewrite S. cbn [dbind]. rewrite Z.eqb_refl. cbn [negb].
    rewrite LV. cbn [dbind]. rewrite Z.ltb_irrefl. apply par_spans_iff in SP. rewrite SP. cbn [dbind]. eapply gives_bind; [apply IH|]. apply gives_ok.
  - pose proof P as (TG & (n0 & ls0 & N0 & S0) & LV0).
    assert (HD : list_head d p = DOk (l, a, j)) by (apply head_iff; split; [exact TG|]; split; [exact LP|]; split; [exact LV0 | eauto]).
    apply HEAD in P as (T & L & LV & n & ls & N & S). rewrite T, L. cbn [dbind negb]. rewrite N. cbn [dbind]. rewrite S. cbn [dbind]. rewrite Z.eqb_refl. cbn [negb].
    rewrite LV. cbn [dbind]. destruct (Z.ltb_spec i j); [|lia]. rewrite HD. cbn [dbind]. eapply gives_bind; [apply IH1|]. cbn beta iota. eapply gives_bind; [apply IH2|]. apply gives_ok.
Qed.

Definition regular_stream (st : list welem) : Prop := incl st (below (dx_body d)).
Hypothesis REG : regular_tables d.

Section Rows.
Variable pa : list welem -> seen -> dres (list hunit * seen).
Hypothesis PA : forall st s us s', regular_stream st -> pa st s = DOk (us, s') -> contents_mean d st s us s'.
Variables (rows : list (list wcell)) (mt : list (list (nat * gcell))).
Hypothesis M : matches rows mt.
Hypothesis KIDS : forall row i g, In row mt -> In (i, g) row -> regular_stream (w_kids (g_cell g)).

Lemma row_sound r row mrow : nth_error rows r = Some row -> nth_error mt r = Some mrow -> forall k x s ts s', (k + x)%nat = columns row ->
  parse_row pa (skipn x mrow) s = DOk (ts, s') -> cells_mean d rows r (columns row) x s ts s'.
Proof.
  intros R MR. pose proof (M r) as MM. rewrite R, MR in MM. destruct MM as [LN EL].
  induction k as [|k IH]; intros x s ts s' K H.
  - rewrite skipn_all2 in H by lia. cbn [parse_row] in H. injection H as <- <-. cbn in K. rewrite K. constructor.
  - destruct (nth_error mrow x) as [[i g]|] eqn:P; [|apply nth_error_None in P; lia]. rewrite (skipn_nth _ _ _ P) in H. cbn [parse_row] in H.
    destruct (pa (w_kids (g_cell g)) s) as [[us s1]| |] eqn:E; cbn [dbind] in H; try discriminate.
    destruct (parse_row pa (skipn (S x) mrow) s1) as [[ts1 s2]| |] eqn:E2; cbn [dbind] in H; try discriminate. injection H as <- <-.
    destruct (EL x _ P) as (r0 & x0 & c & n & F & HT & E1 & C1 & C2 & C3 & C4). cbn [snd] in *. rewrite C1, C2, C3, C4, E1.
    eapply cs_cell; [lia | exact F | exact HT | apply colour_of_iff; reflexivity | apply cell_kind_iff; reflexivity | | apply IH; [lia | exact E2]].
    rewrite <- E1. apply PA; [exact (KIDS mrow i g (nth_error_In _ _ MR) (nth_error_In _ _ P)) | exact E].
Qed.
Lemma rows_sound : forall k r s tss s', (k + r)%nat = List.length mt -> parse_rows pa (skipn r mt) s = DOk (tss, s') -> rows_mean d rows r s tss s'.
Proof.
  induction k as [|k IH]; intros r s tss s' K H.
  - rewrite skipn_all2 in H by lia. cbn [parse_rows] in H. injection H as <- <-. apply rm_end. pose proof (M r) as MM.
    replace (nth_error mt r) with (@None (list (nat * gcell))) in MM by (symmetry; apply nth_error_None; lia). destruct (nth_error rows r); [destruct MM | reflexivity].
  - destruct (nth_error mt r) as [mrow|] eqn:P; [|apply nth_error_None in P; lia]. rewrite (skipn_nth _ _ _ P) in H. cbn [parse_rows] in H.
    destruct (parse_row pa mrow s) as [[ts s1]| |] eqn:E; cbn [dbind] in H; try discriminate.
    destruct (parse_rows pa (skipn (S r) mt) s1) as [[tss1 s2]| |] eqn:E2; cbn [dbind] in H; try discriminate. injection H as <- <-.
    pose proof (M r) as MM. rewrite P in MM. destruct (nth_error rows r) as [row|] eqn:R; [|destruct MM].
    eapply rm_row; [exact R | apply (row_sound r row mrow R P (columns row) 0); [lia | exact E] | apply IH; [lia | exact E2]].
Qed.
End Rows.

Lemma table_sound pa t s u s' : (forall st s us s', regular_stream st -> pa st s = DOk (us, s') -> contents_mean d st s us s') ->
  In t (below (dx_body d)) -> w_tag t = utf8 "w:tbl" -> parse_table pa t s = DOk (u, s') ->
  match u with Some u => table_means d t s u s' | None => In (w_id t) s /\ s' = s end.
Proof.
  intros PA I T H. unfold parse_table in H. destruct (mem_id (w_id t) s) eqn:MI.
  - injection H as <- <-. split; [apply mem_id_iff; exact MI | reflexivity].
  - destruct (grid t) as [mt| |] eqn:G; cbn [dbind] in H; try discriminate. destruct (parse_rows pa mt (w_id t :: s)) as [[cells s1]| |] eqn:E; cbn [dbind] in H; try discriminate.
    injection H as <- <-. destruct (REG t I T) as (rows & LY & AL). eapply tm_table; [intros X; apply mem_id_iff in X; congruence | exact LY | exact AL | | apply table_number_iff; reflexivity].
    apply (rows_sound pa PA rows mt (grid_matches _ _ _ LY AL G)) with (k := List.length mt); [|lia|exact E].
    intros row i g R IG k K. pose proof (grid_cells _ _ _ _ _ G R IG) as C. unfold cells_of in C. apply in_flat_map in C as (tr & TR & TC).
    apply children_kids in TR. apply children_kids in TC. eapply below_kid; [eapply below_kid; [eapply below_kid; [exact I | exact TR] | exact TC] | exact K].
Qed.

Lemma any_sound : forall f st s us s', regular_stream st -> parse_any d f st s = DOk (us, s') -> contents_mean d st s us s'.
Proof.
  induction f as [|f IH]; intros st s us s' RS H; cbn [parse_any] in H; [discriminate|].
  destruct st as [|e rest]; [injection H as <- <-; constructor|].
  assert (RR : regular_stream rest) by (intros x X; apply RS; right; exact X). pose proof (RS e (or_introl eq_refl)) as IE.
  destruct (is_tag "w:tbl" e) eqn:TT.
  - apply is_tag_iff in TT. destruct (parse_table (parse_any d f) e s) as [[u s1]| |] eqn:E; cbn [dbind] in H; try discriminate.
    destruct (parse_any d f rest s1) as [[us1 s2]| |] eqn:E2; cbn [dbind] in H; try discriminate. injection H as <- <-.
    apply (table_sound _ _ _ _ _ (fun st s us s' => IH st s us s') IE TT) in E. destruct u as [u|].
    + eapply cm_table; [exact TT | exact E | exact (IH _ _ _ _ RR E2)].
    + destruct E as [I ->]. apply cm_again; [exact TT | exact I | exact (IH _ _ _ _ RR E2)].
  - apply is_tag_false in TT. destruct (is_tag "w:p" e) eqn:TP.
    + apply is_tag_iff in TP. destruct (is_list_p d e) as [[]| |] eqn:LP; cbn [dbind] in H; try discriminate.
      * destruct (parse_list d (e :: rest)) as [[u st']| |] eqn:PL; cbn [dbind] in H; try discriminate.
        destruct (parse_any d f st' s) as [[us1 s1]| |] eqn:E; cbn [dbind] in H; try discriminate. injection H as <- <-.
        destruct (parse_list_shorter _ _ _ _ _ PL TP LP) as (ps & EQ).
        unfold parse_list in PL. destruct (list_head d e) as [[[l a] i]| |] eqn:HD; cbn [dbind] in PL; try discriminate.
        destruct (list_elems d _ (e :: rest) a i) as [[its st1]| |] eqn:LE; cbn [dbind] in PL; try discriminate. injection PL as <- <-.
        apply head_iff in HD as (_ & LPR & LV & NN). eapply cm_list; [split; [exact TP|]; split; [exact NN | exact LV] | exact LPR | exact (elems_sound _ _ _ _ _ _ LE)|].
        apply (IH st1 s us1 s1); [|exact E]. intros x X. apply RS. rewrite EQ. apply in_or_app. right. exact X.
      * apply not_listed_iff in LP. unfold parse_paragraph in H. destruct (parse_spans d e) as [sps| |] eqn:SP; cbn [dbind] in H; try discriminate. apply par_spans_iff in SP.
        destruct (parse_any d f rest s) as [[us1 s1]| |] eqn:E; cbn [dbind] in H; try discriminate. injection H as <- <-. apply (IH _ _ _ _ RR) in E.
        destruct sps as [|sp sps]; [apply cm_empty; assumption | apply cm_par; try assumption; discriminate].
    + apply is_tag_false in TP. apply cm_other; [exact TT | exact TP | exact (IH _ _ _ _ RR H)].
Qed.

Lemma tables_sound : forall ts s us s', incl ts (filter (is_tag "w:tbl") (below (dx_body d))) -> parse_tables d ts s = DOk (us, s') -> tables_mean d ts s us s'.
Proof.
  induction ts as [|t ts IH]; intros s us s' IN H; cbn [parse_tables] in H; [injection H as <- <-; constructor|].
  destruct (parse_table _ t s) as [[u s1]| |] eqn:E; cbn [dbind] in H; try discriminate. destruct (parse_tables d ts s1) as [[us1 s2]| |] eqn:E2; cbn [dbind] in H; try discriminate.
  injection H as <- <-. pose proof (IN t (or_introl eq_refl)) as I. apply filter_In in I as [I T]. apply is_tag_iff in T.
  assert (E3 := IH _ _ _ (fun x X => IN x (or_intror X)) E2). apply (table_sound _ _ _ _ _ (any_sound _) I T) in E. destruct u as [u|].
  - eapply tsm_table; eassumption.
  - destruct E as [X ->]. apply tsm_again; assumption.
Qed.
End Doc.

(** ** And all of it *)

Section Complete.
Variable d : docx.
Scheme cm_ind' := Minimality for contents_mean Sort Prop
with tm_ind' := Minimality for table_means Sort Prop
with rm_ind' := Minimality for rows_mean Sort Prop
with cs_ind' := Minimality for cells_mean Sort Prop.
Combined Scheme means_ind from cm_ind', tm_ind', rm_ind', cs_ind'.

Lemma means_complete :
  (forall st s us s', contents_mean d st s us s' -> forall f, gives (parse_any d f st s) (us, s'))
  /\ (forall t s u s', table_means d t s u s' -> forall f, gives (parse_table (parse_any d f) t s) (Some u, s'))
  /\ (forall rows r s tss s', rows_mean d rows r s tss s' -> forall f mt, matches rows mt -> gives (parse_rows (parse_any d f) (skipn r mt) s) (tss, s'))
  /\ (forall rows r w x s ts s', cells_mean d rows r w x s ts s' -> forall f mrow, List.length mrow = w -> (forall x p, nth_error mrow x = Some p -> element_of rows r x (snd p)) ->
        gives (parse_row (parse_any d f) (skipn x mrow) s) (ts, s')).
Proof.
  apply means_ind.
  - intros s [|f]; [left; reflexivity | apply gives_ok].
  - intros e st s us s' NT NP _ IH [|f]; [left; reflexivity|]. cbn [parse_any]. apply is_tag_false in NT, NP. rewrite NT, NP. apply IH.
  - intros t st s us s' T I _ IH [|f]; [left; reflexivity|]. cbn [parse_any]. apply is_tag_iff in T. rewrite T. unfold parse_table. apply mem_id_iff in I. rewrite I. cbn [dbind].
    eapply gives_bind; [apply IH | apply gives_ok].
  - intros t st s u s1 us s2 T _ IH1 _ IH2 [|f]; [left; reflexivity|]. cbn [parse_any]. apply is_tag_iff in T. rewrite T.
    eapply gives_bind; [apply IH1|]. cbn beta iota. eapply gives_bind; [apply IH2 | apply gives_ok].
  - intros p st a i l its st' s us s' P LP LI _ IH [|f]; [left; reflexivity|]. cbn [parse_any]. pose proof P as (TP & NN & LV).
    assert (TT : is_tag "w:tbl" p = false) by (apply is_tag_false; rewrite TP; discriminate). rewrite TT. apply is_tag_iff in TP as TP'. rewrite TP'.
    apply list_par_iff in P as (_ & L & _). rewrite L. cbn [dbind]. unfold parse_list.
    rewrite (proj2 (head_iff d p l a i) (conj TP (conj LP (conj LV NN)))). cbn [dbind].
    pose proof (elems_complete d a i _ _ _ LI (list_fuel (p :: st))) as [E|E]; rewrite E; cbn [dbind]; [left; reflexivity|].
    eapply gives_bind; [apply IH | apply gives_ok].
  - intros p st sps s us s' TP NL SP NE _ IH [|f]; [left; reflexivity|]. cbn [parse_any].
    assert (TT : is_tag "w:tbl" p = false) by (apply is_tag_false; rewrite TP; discriminate). rewrite TT. apply is_tag_iff in TP. rewrite TP.
    apply not_listed_iff in NL. rewrite NL. cbn [dbind]. unfold parse_paragraph. apply par_spans_iff in SP. rewrite SP. cbn [dbind].
    destruct sps as [|sp sps]; [congruence|]. eapply gives_bind; [apply IH | apply gives_ok].
  - intros p st s us s' TP NL SP _ IH [|f]; [left; reflexivity|]. cbn [parse_any].
    assert (TT : is_tag "w:tbl" p = false) by (apply is_tag_false; rewrite TP; discriminate). rewrite TT. apply is_tag_iff in TP. rewrite TP.
    apply not_listed_iff in NL. rewrite NL. cbn [dbind]. unfold parse_paragraph. apply par_spans_iff in SP. rewrite SP. cbn [dbind].
    eapply gives_bind; [apply IH | apply gives_ok].
  - intros t s rows cells id s' NI LY AL _ IH TN f. unfold parse_table. rewrite (mem_id_false _ _ NI).
    destruct (grid_aligned t rows LY AL) as (h & m & G & _). rewrite G. cbn [dbind].
    eapply gives_bind; [exact (IH f _ (grid_matches _ _ _ LY AL G))|]. cbn beta iota. apply table_number_iff in TN. rewrite TN. apply gives_ok.
  - intros rows r s R f mt M. pose proof (M r) as MM. rewrite R in MM. destruct (nth_error mt r) as [mrow|] eqn:P; [destruct MM|].
    apply nth_error_None in P. rewrite skipn_all2 by exact P. apply gives_ok.
  - intros rows r row s ts s1 tss s2 R _ IH1 _ IH2 f mt M. pose proof (M r) as MM. rewrite R in MM. destruct (nth_error mt r) as [mrow|] eqn:P; [|destruct MM].
    destruct MM as [LN EL]. rewrite (skipn_nth _ _ _ P). cbn [parse_rows]. eapply gives_bind; [exact (IH1 f mrow LN EL)|]. cbn beta iota.
    eapply gives_bind; [exact (IH2 f mt M) | apply gives_ok].
  - intros rows r x s f mrow LN _. rewrite skipn_all2 by lia. apply gives_ok.
  - intros rows r w x r0 x0 c n tag fill us s s1 ts s2 XW F HT CO CK _ IH1 _ IH2 f mrow LN EL.
    destruct (nth_error mrow x) as [[i g]|] eqn:P; [|apply nth_error_None in P; lia]. rewrite (skipn_nth _ _ _ P). cbn [parse_row].
    destruct (EL x _ P) as (r1 & x1 & c1 & n1 & F1 & HT1 & E1 & C1 & C2 & C3 & C4). cbn [snd] in *.
    destruct (from_cell_det _ _ _ _ _ _ _ _ _ F F1) as (<- & <- & <-). rewrite <- (height_det _ _ _ _ _ HT HT1) in C2.
    rewrite E1, C1, C2, C3, C4. apply colour_of_iff in CO. rewrite <- CO in CK. apply cell_kind_iff in CK. rewrite CO, CK.
    eapply gives_bind; [apply IH1|]. cbn beta iota. eapply gives_bind; [exact (IH2 f mrow LN EL) | apply gives_ok].
Qed.
Lemma tables_complete ts s us s' : tables_mean d ts s us s' -> gives (parse_tables d ts s) (us, s').
Proof.
  induction 1 as [s|t ts s us s' I _ IH|t ts s u s1 us s2 T _ IH]; cbn [parse_tables]; [apply gives_ok|..].
  - unfold parse_table at 1. apply mem_id_iff in I. rewrite I. cbn [dbind]. eapply gives_bind; [exact IH | apply gives_ok].
  - eapply gives_bind; [apply (proj1 (proj2 means_complete)); exact T|]. cbn beta iota. eapply gives_bind; [exact IH | apply gives_ok].
Qed.
End Complete.
