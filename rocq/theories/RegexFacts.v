(** Facts about the matcher of Regex.v and the exact meaning of every pattern of Regexes.v. *)
From Coq Require Import NArith ZArith List Bool String Lia ZifyBool ZifyN.
From Verif Require Import PyStr PyStrFacts Regex Regexes.
Import ListNotations.
Local Open Scope list_scope.
Local Open Scope N_scope.

(** ** Greedy repetition *)

(** If the continuation succeeds after the longest run, that is the result. *)
Lemma star_loop_greedy {A} p (b : bool) s (k : bool -> str -> option A) x :
  k (b && match take_while p s with [] => true | _ => false end) (drop_while p s) = Some x ->
  star_loop p b s k = Some x.
Proof.
  revert b; induction s as [|c r IH]; intros b H; cbn in *.
  - rewrite andb_true_r in H. exact H.
  - destruct (p c).
    + rewrite andb_false_r in H. rewrite (IH false); [reflexivity|]. exact H.
    + rewrite andb_true_r in H. exact H.
Qed.

(** If the continuation fails after every run, there is no match. *)
Lemma star_loop_none {A} p (b : bool) s (k : bool -> str -> option A) :
  (forall b' u v, s = u ++ v -> forallb p u = true -> k b' v = None) ->
  star_loop p b s k = None.
Proof.
  revert b; induction s as [|c r IH]; intros b H; cbn.
  - apply (H b [] []); reflexivity.
  - destruct (p c) eqn:E.
    + rewrite IH.
      * apply (H b [] (c :: r)); reflexivity.
      * intros b' u v -> Hu. apply (H b' (c :: u) v); [reflexivity|]. cbn. rewrite E. exact Hu.
    + apply (H b [] (c :: r)); reflexivity.
Qed.

(** The general description: the result is that of the longest run after which the
    continuation succeeds. *)
Lemma star_loop_inv {A} p (b : bool) s (k : bool -> str -> option A) x :
  star_loop p b s k = Some x ->
  exists u v, s = u ++ v /\ forallb p u = true
    /\ k (b && match u with [] => true | _ => false end) v = Some x
    /\ forall u' v', s = u' ++ v' -> forallb p u' = true -> (List.length u < List.length u')%nat ->
         k false v' = None.
Proof.
  revert b; induction s as [|c r IH]; intros b H; cbn in H.
  - exists [], []. rewrite andb_true_r. repeat split; auto.
    intros u' v' E _ L. destruct u'; [cbn in L; lia | discriminate].
  - destruct (p c) eqn:E.
    + destruct (star_loop p false r k) as [y|] eqn:S.
      * injection H as ->. destruct (IH false S) as (u & v & E1 & E2 & E3 & E4).
        exists (c :: u), v. subst r. repeat split; [cbn; rewrite E; exact E2 | |].
        -- rewrite andb_false_r. cbn in E3. exact E3.
        -- intros [|c' u'] v' Es Hp L; [cbn in L; lia|].
           injection Es as <- Es. apply (E4 u' v' Es); [cbn in Hp; apply andb_true_iff in Hp; tauto|].
           cbn in L. lia.
      * exists [], (c :: r). rewrite andb_true_r. repeat split; auto.
        intros [|c' u'] v' Es Hp L; [cbn in L; lia|]. injection Es as <- Es.
        cbn in Hp. apply andb_true_iff in Hp as [_ Hp].
        revert S Es Hp. clear. revert u' v'. induction r as [|d r IH]; intros u' v' S Es Hp; cbn in S.
        -- destruct u'; [|discriminate]. cbn in Es. subst v'. exact S.
        -- destruct (p d) eqn:Pd.
           ++ destruct (star_loop p false r k) eqn:S'; [discriminate|].
              destruct u' as [|d' u']; cbn in Es; [subst v'; exact S|].
              injection Es as <- Es. cbn in Hp. apply andb_true_iff in Hp as [_ Hp].
              apply (IH u' v' eq_refl Es Hp).
           ++ destruct u' as [|d' u']; cbn in Es; [subst v'; exact S|].
              injection Es as <- Es. cbn in Hp. rewrite Pd in Hp. discriminate.
    + exists [], (c :: r). rewrite andb_true_r. repeat split; auto.
      intros [|c' u'] v' Es Hp L; [cbn in L; lia|]. injection Es as <- Es.
      cbn in Hp. rewrite E in Hp. discriminate.
Qed.

(** A repetition succeeds as soon as one run makes the continuation succeed at any flag. *)
Lemma star_loop_some {A} p (b : bool) s (k : bool -> str -> option A) u v x :
  s = u ++ v -> forallb p u = true ->
  (forall b', k b' v = Some x) -> exists y, star_loop p b s k = Some y.
Proof.
  revert b s; induction u as [|c u IH]; intros b s -> Hu Hk; cbn in *.
  - destruct v as [|c v]; cbn; [eauto|]. destruct (p c).
    + destruct (star_loop p false v k); eauto.
    + eauto.
  - apply andb_true_iff in Hu as [H1 H2]. rewrite H1.
    destruct (IH false (u ++ v) eq_refl H2 Hk) as (y & ->). eauto.
Qed.

Lemma between_app a t : between (a ++ t) t = a.
Proof.
  unfold between. rewrite app_length. replace (List.length a + List.length t - List.length t)%nat with (List.length a) by lia.
  rewrite firstn_app, Nat.sub_diag, firstn_all. cbn. apply app_nil_r.
Qed.

Lemma between_nil s : between s [] = s.
Proof. rewrite <- (app_nil_r s) at 1. apply between_app. Qed.

Lemma between_drop p s : between s (drop_while p s) = take_while p s.
Proof. rewrite <- (take_drop p s) at 1. apply between_app. Qed.

(** ** Pattern by pattern

    Each pattern gets a direct description [..._split] of what it captures, and a theorem
    equating it with the matcher's result on every text. *)

(** Skip one given character if present. *)
Definition skip1 (c : N) (s : str) : str :=
  match s with x :: r => if x =? c then r else s | [] => [] end.

(** [,-/] and the rest of the label class of STRUCT_LABEL_REGEX *)
Definition struct_label_char (c : N) : bool :=
  isword c || isspace c || ((44 <=? c) && (c <=? 47)) || (c =? 38).
Definition acronym_char (c : N) : bool := isword c || isspace c.
Definition value_label_char (c : N) : bool := isword c || isspace c || (c =? 47) || (c =? 45).

Lemma cls_struct_label c :
  cls_ok (Cls [CW; CS; CR 44 47; CI 38]) c = struct_label_char c.
Proof. unfold struct_label_char. cbn. rewrite orb_false_r, !orb_assoc. reflexivity. Qed.

Lemma cls_acronym c : cls_ok (Cls [CW; CS; CD]) c = acronym_char c.
Proof.
  unfold acronym_char. cbn. rewrite orb_false_r, orb_assoc.
  destruct (isdigit c) eqn:E; [|apply orb_false_r].
  rewrite (isdigit_isword c E). reflexivity.
Qed.

Lemma cls_value_label c : cls_ok (Cls [CW; CS; CI 47; CI 45]) c = value_label_char c.
Proof. unfold value_label_char. cbn. rewrite orb_false_r, !orb_assoc. reflexivity. Qed.

Lemma take_while_ext p q s : (forall c, p c = q c) -> take_while p s = take_while q s.
Proof. intros H. induction s as [|c s IH]; cbn; [reflexivity|]. rewrite H, IH. reflexivity. Qed.
Lemma drop_while_ext p q s : (forall c, p c = q c) -> drop_while p s = drop_while q s.
Proof. intros H. induction s as [|c s IH]; cbn; [reflexivity|]. rewrite H, IH. reflexivity. Qed.
Lemma forallb_ext' p q (s : str) : (forall c, p c = q c) -> forallb p s = forallb q s.
Proof. intros H. induction s as [|c s IH]; cbn; [reflexivity|]. rewrite H, IH. reflexivity. Qed.

(** The common tail "(?P<brief>.+)?$" with DOTALL takes everything that is left. *)
Lemma brief_tail b s (g : caps) :
  mt (rseq [ROpt (RGrp G_brief (RPlus Any)); REol]) b s g (fun _ _ g => Some g)
  = Some (match s with [] => g | _ => (G_brief, s) :: g end).
Proof.
  destruct s as [|c r]; cbn [rseq mt]; [reflexivity|].
  cbn [cls_ok].
  assert (D : drop_while (fun _ => true) r = []) by (clear; induction r; cbn; auto).
  assert (T : take_while (fun _ => true) r = r).
  { rewrite <- (take_drop (fun _ => true) r) at 2. rewrite D. symmetry; apply app_nil_r. }
  erewrite star_loop_greedy; [reflexivity|].
  change (cls_ok Any) with (fun _ : N => true). rewrite D. rewrite between_nil. reflexivity.
Qed.

Lemma opt_chr {A} c b s (g : caps) (k : bool -> str -> caps -> option A) x :
  (forall b', k b' (skip1 c s) g = Some x) ->
  mt (ROpt (RChr (one c))) b s g k = Some x.
Proof.
  intros H. cbn. destruct s as [|y r]; cbn in *.
  - apply H.
  - rewrite orb_false_r. destruct (y =? c) eqn:E; cbn in *; rewrite H; reflexivity.
Qed.

(** What STRUCT_LABEL_REGEX captures: label, acronym, and the rest. *)
Definition struct_split (s : str) : str * str * str :=
  let r1 := skip1 40 (drop_while struct_label_char s) in
  (take_while struct_label_char s, take_while acronym_char r1,
   skip1 58 (skip1 41 (drop_while acronym_char r1))).

(** Rules for following the greedy path through a pattern. *)
Lemma m_seq {A} r1 r2 b s g (k : bool -> str -> caps -> option A) x :
  mt r1 b s g (fun b' t g' => mt r2 b' t g' k) = Some x -> mt (RSeq r1 r2) b s g k = Some x.
Proof. exact (fun H => H). Qed.

Lemma m_bol {A} s g (k : bool -> str -> caps -> option A) x :
  k true s g = Some x -> mt RBol true s g k = Some x.
Proof. exact (fun H => H). Qed.

Lemma m_chr {A} c b y r g (k : bool -> str -> caps -> option A) x :
  cls_ok c y = true -> k false r g = Some x -> mt (RChr c) b (y :: r) g k = Some x.
Proof. intros H1 H2. cbn. rewrite H1. exact H2. Qed.

Lemma m_opt {A} r b s g (k : bool -> str -> caps -> option A) x :
  mt r b s g k = Some x -> mt (ROpt r) b s g k = Some x.
Proof. intros H. cbn. rewrite H. reflexivity. Qed.

Lemma m_grp_star {A} n c q b s g (k : bool -> str -> caps -> option A) x :
  (forall y, cls_ok c y = q y) ->
  (forall b', k b' (drop_while q s) ((n, take_while q s) :: g) = Some x) ->
  mt (RGrp n (RStar c)) b s g k = Some x.
Proof.
  intros Hc Hk. cbn. apply star_loop_greedy.
  rewrite (drop_while_ext _ q s Hc), between_drop. apply Hk.
Qed.

Theorem STRUCT_LABEL_REGEX_spec s :
  re_match STRUCT_LABEL_REGEX s =
  Some (let '(l, a, b) := struct_split s in
        match b with [] => [] | _ => [(G_brief, b)] end
        ++ [(G_acronym, a); (G_label, l)]).
Proof.
  unfold re_match, STRUCT_LABEL_REGEX, struct_split. cbn [rseq].
  apply m_seq, m_bol, m_seq, (m_grp_star _ _ _ _ _ _ _ _ cls_struct_label). intros b1.
  apply m_seq, opt_chr. intros b2.
  apply m_seq, m_opt, (m_grp_star _ _ _ _ _ _ _ _ cls_acronym). intros b3.
  apply m_seq, opt_chr. intros b4. apply m_seq, opt_chr. intros b5.
  pose proof (brief_tail b5) as B. cbn [rseq] in B. rewrite B.
  cbv zeta. destruct (skip1 58 _); reflexivity.
Qed.

(** What VALUE_LABEL_REGEX captures: label and the rest. *)
Definition value_split (s : str) : str * str :=
  (take_while value_label_char s, skip1 58 (drop_while value_label_char s)).

Theorem VALUE_LABEL_REGEX_spec s :
  re_match VALUE_LABEL_REGEX s =
  Some (let '(l, b) := value_split s in
        match b with [] => [] | _ => [(G_brief, b)] end ++ [(G_label, l)]).
Proof.
  unfold re_match, VALUE_LABEL_REGEX, value_split. cbn [rseq].
  apply m_seq, m_bol, m_seq, (m_grp_star _ _ _ _ _ _ _ _ cls_value_label). intros b1.
  apply m_seq, opt_chr. intros b2.
  pose proof (brief_tail b2) as B. cbn [rseq] in B. rewrite B.
  destruct (skip1 58 _); reflexivity.
Qed.

(** RANGE_REGEX: a digit run, then optionally blanks, a colon, blanks and another one. *)
Definition range_split (s : str) : option (str * option str) :=
  match take_while isdigit s with
  | [] => None
  | hi =>
      Some (hi, match drop_while isspace (drop_while isdigit s) with
                | c :: r =>
                    if c =? 58 then
                      match take_while isdigit (drop_while isspace r) with
                      | [] => None
                      | lo => Some lo
                      end
                    else None
                | [] => None
                end)
  end.

Lemma cls_digit c : cls_ok (Cls [CD]) c = isdigit c.
Proof. cbn. apply orb_false_r. Qed.
Lemma cls_space c : cls_ok (Cls [CS]) c = isspace c.
Proof. cbn. apply orb_false_r. Qed.
Lemma cls_one x c : cls_ok (one x) c = (c =? x).
Proof. cbn. apply orb_false_r. Qed.
Lemma cls_word c : cls_ok (Cls [CW]) c = isword c.
Proof. cbn. apply orb_false_r. Qed.

Lemma m_star {A} c q b s g (k : bool -> str -> caps -> option A) x :
  (forall y, cls_ok c y = q y) ->
  (forall b', k b' (drop_while q s) g = Some x) ->
  mt (RStar c) b s g k = Some x.
Proof.
  intros Hc Hk. cbn. apply star_loop_greedy. rewrite (drop_while_ext _ q s Hc). apply Hk.
Qed.

Lemma m_plus {A} c q b s g (k : bool -> str -> caps -> option A) x :
  (forall y, cls_ok c y = q y) ->
  take_while q s <> [] ->
  (forall b', k b' (drop_while q s) g = Some x) ->
  mt (RPlus c) b s g k = Some x.
Proof.
  intros Hc Hn Hk. destruct s as [|y r]; cbn in *; [congruence|].
  rewrite Hc. destruct (q y) eqn:E; [|congruence].
  apply star_loop_greedy. rewrite (drop_while_ext _ q r Hc). apply Hk.
Qed.

Lemma m_grp_plus {A} n c q b s g (k : bool -> str -> caps -> option A) x :
  (forall y, cls_ok c y = q y) ->
  take_while q s <> [] ->
  (forall b', k b' (drop_while q s) ((n, take_while q s) :: g) = Some x) ->
  mt (RGrp n (RPlus c)) b s g k = Some x.
Proof.
  intros Hc Hn Hk. change (mt (RPlus c) b s g (fun b' t g' => k b' t ((n, between s t) :: g')) = Some x).
  apply (m_plus c q); [exact Hc | exact Hn|]. intros b'. rewrite between_drop. apply Hk.
Qed.

Lemma m_plus_none {A} c b s g (k : bool -> str -> caps -> option A) :
  match s with x :: _ => cls_ok c x = false | [] => True end ->
  mt (RPlus c) b s g k = None.
Proof. destruct s; cbn; [reflexivity|]. intros ->. reflexivity. Qed.

Lemma take_while_nil p s : take_while p s = [] -> stops p s.
Proof. destruct s as [|c r]; cbn; [auto|]. destruct (p c); [discriminate | reflexivity]. Qed.

Theorem RANGE_REGEX_spec s :
  re_match RANGE_REGEX s =
  match range_split s with
  | None => None
  | Some (hi, None) => Some [(G_high, hi)]
  | Some (hi, Some lo) => Some [(G_low, lo); (G_high, hi)]
  end.
Proof.
  unfold re_match, RANGE_REGEX, range_split. cbn [rseq].
  destruct (take_while isdigit s) as [|h0 h] eqn:T.
  - (* no leading digit *)
    change (mt (RPlus (Cls [CD])) true s [] (fun b' t g' =>
       mt (RSeq (RStar (Cls [CS])) (ROpt (RSeq (RChr (one 58)) (RSeq (RStar (Cls [CS]))
          (RGrp G_low (RPlus (Cls [CD]))))))) b' t ((G_high, between s t) :: g')
          (fun _ _ g => Some g)) = None).
    apply m_plus_none. apply take_while_nil in T. destruct s; [exact I|].
    cbn in T. rewrite cls_digit. exact T.
  - rewrite <- T.
    set (r1 := drop_while isspace (drop_while isdigit s)).
    assert (K : forall b g, mt (ROpt (RSeq (RChr (one 58)) (RSeq (RStar (Cls [CS]))
                 (RGrp G_low (RPlus (Cls [CD])))))) b r1 g (fun _ _ g => Some g)
              = Some (match match r1 with
                      | c :: r => if c =? 58 then
                          match take_while isdigit (drop_while isspace r) with
                          | [] => None | lo => Some lo end else None
                      | [] => None end with
                      | Some lo => (G_low, lo) :: g | None => g end)).
    { intros b g. destruct r1 as [|c r]; [reflexivity|].
      destruct (c =? 58) eqn:E.
      - destruct (take_while isdigit (drop_while isspace r)) as [|l0 l] eqn:L.
        + (* no digits after the colon, whatever blanks are taken *)
          cbn [mt]. rewrite cls_one, E.
          rewrite star_loop_none; [reflexivity|].
          intros b' u v -> Hu.
          assert (Hs : forallb isspace u = true).
          { rewrite <- Hu. apply forallb_ext'. intros y. symmetry. apply cls_space. }
          destruct v as [|y v]; [reflexivity|]. rewrite cls_digit.
          destruct (isdigit y) eqn:D; [|reflexivity].
          rewrite drop_while_app in L by exact Hs. cbn in L.
          rewrite (isdigit_not_space y D) in L. cbn in L. rewrite D in L. discriminate.
        + rewrite <- L. apply m_opt, m_seq, m_chr; [rewrite cls_one; exact E|].
          apply m_seq, (m_star _ _ _ _ _ _ _ cls_space). intros b1.
          apply (m_grp_plus _ _ _ _ _ _ _ _ cls_digit); [congruence|]. intros b2. reflexivity.
      - cbn [mt]. rewrite cls_one, E. reflexivity. }
    destruct r1 as [|c r] eqn:R1; fold r1.
    + apply m_seq, (m_grp_plus _ _ _ _ _ _ _ _ cls_digit); [congruence|]. intros b1.
      apply m_seq, (m_star _ _ _ _ _ _ _ cls_space). intros b2. fold r1. rewrite R1. apply K.
    + destruct (c =? 58) eqn:E; [destruct (take_while isdigit (drop_while isspace r)) as [|l0 l] eqn:L|];
      (apply m_seq, (m_grp_plus _ _ _ _ _ _ _ _ cls_digit); [congruence|]; intros b1;
       apply m_seq, (m_star _ _ _ _ _ _ _ cls_space); intros b2; fold r1; rewrite R1; rewrite K; reflexivity).
Qed.

(** ** Patterns whose repetition is followed by something it cannot match *)

(** If the continuation fails on every text starting with a repeated character, only the
    longest run counts. *)
Lemma star_loop_det {A} p (b : bool) s (k : bool -> str -> option A) :
  (forall b' c v, p c = true -> k b' (c :: v) = None) ->
  star_loop p b s k
  = k (b && match take_while p s with [] => true | _ => false end) (drop_while p s).
Proof.
  intros H. revert b; induction s as [|c r IH]; intros b; cbn.
  - rewrite andb_true_r. reflexivity.
  - destruct (p c) eqn:E.
    + rewrite IH, andb_false_r. cbn [andb]. rewrite (H b c r E).
      destruct (k false (drop_while p r)); reflexivity.
    + rewrite andb_true_r. reflexivity.
Qed.

(** The same for one or more. *)
Lemma plus_det {A} c q b s g (k : bool -> str -> caps -> option A) :
  (forall y, cls_ok c y = q y) ->
  (forall b' y v, q y = true -> k b' (y :: v) g = None) ->
  mt (RPlus c) b s g k
  = match take_while q s with [] => None | _ => k false (drop_while q s) g end.
Proof.
  intros Hc Hk. destruct s as [|y r]; [reflexivity|]. cbn [mt take_while drop_while].
  rewrite Hc. destruct (q y) eqn:E; [|reflexivity].
  rewrite star_loop_det.
  - rewrite (drop_while_ext _ q r Hc). reflexivity.
  - intros b' z v Hz. apply Hk. rewrite <- Hc. exact Hz.
Qed.

(** A literal. *)
Lemma rlit_app {A} p b t g (k : bool -> str -> caps -> option A) :
  mt (rlit p) b (p ++ t) g k = k (match p with [] => b | _ => false end) t g.
Proof.
  revert b; induction p as [|c p IH]; intros b; [reflexivity|].
  destruct p as [|d p].
  - cbn. rewrite N.eqb_refl. reflexivity.
  - change (mt (rlit (c :: d :: p)) b ((c :: d :: p) ++ t) g k)
      with (if cls_ok (one c) c then mt (rlit (d :: p)) false ((d :: p) ++ t) g k else None).
    rewrite cls_one, N.eqb_refl. apply IH.
Qed.

Lemma rlit_none {A} p b s g (k : bool -> str -> caps -> option A) :
  startswith p s = false -> mt (rlit p) b s g k = None.
Proof.
  revert b s; induction p as [|c p IH]; intros b s H; [discriminate|].
  destruct p as [|d p].
  - destruct s as [|y s]; [reflexivity|]. cbn in *. rewrite orb_false_r.
    rewrite andb_true_r, N.eqb_sym in H. rewrite H. reflexivity.
  - destruct s as [|y s]; [reflexivity|].
    change (mt (rlit (c :: d :: p)) b (y :: s) g k)
      with (if cls_ok (one c) y then mt (rlit (d :: p)) false s g k else None).
    rewrite cls_one. cbn [startswith] in H. rewrite N.eqb_sym in H.
    destruct (y =? c); [|reflexivity]. apply IH. exact H.
Qed.

(** The final "." repetition takes the rest of the line and always succeeds. *)
Definition not_nl (c : N) : bool := negb (c =? 10).

(** LABEL_NUMERICAL_REARRANGE_REGEX *)
Definition num_split (s : str) : option (str * str) :=
  match take_while isdigit s with
  | [] => None
  | d => Some (d, take_while not_nl (drop_while isdigit s))
  end.

Theorem LABEL_NUMERICAL_REARRANGE_REGEX_spec s :
  re_match LABEL_NUMERICAL_REARRANGE_REGEX s =
  match num_split s with
  | None => None
  | Some (d, r) => Some [(G_2, r); (G_1, d)]
  end.
Proof.
  unfold re_match, LABEL_NUMERICAL_REARRANGE_REGEX, num_split. cbn [rseq].
  destruct (take_while isdigit s) as [|h0 h] eqn:T.
  - cbn [mt]. apply take_while_nil in T. destruct s as [|c r]; [reflexivity|].
    cbn in T. rewrite cls_digit, T. reflexivity.
  - rewrite <- T. apply m_seq, m_bol, m_seq, (m_grp_plus _ _ _ _ _ _ _ _ cls_digit); [congruence|].
    intros b1. apply (m_grp_star _ _ not_nl); [reflexivity|]. intros b2. reflexivity.
Qed.

(** DYNAMIC_RANGE_REGEX *)
Definition dyn_char (c : N) : bool :=
  ((97 <=? c) && (c <=? 122)) || ((65 <=? c) && (c <=? 90)) || ((48 <=? c) && (c <=? 57))
  || (c =? 43) || (c =? 45) || (c =? 42) || (c =? 40) || (c =? 41) || isspace c.

Lemma cls_dyn c : cls_ok dyn_cls c = dyn_char c.
Proof. unfold dyn_char. cbn. rewrite orb_false_r, !orb_assoc. reflexivity. Qed.

Lemma dyn_not_colon c : dyn_char c = true -> (c =? 58) = false.
Proof. intros H. apply N.eqb_neq. intros ->. vm_compute in H. discriminate. Qed.

Definition dyn_split (s : str) : option (str * str) :=
  match take_while dyn_char s, drop_while dyn_char s with
  | (_ :: _) as a, c :: r =>
      if c =? 58 then
        match take_while dyn_char r with
        | [] => None
        | b => Some (a, b)
        end
      else None
  | _, _ => None
  end.

Theorem DYNAMIC_RANGE_REGEX_spec s :
  re_match DYNAMIC_RANGE_REGEX s =
  match dyn_split s with
  | None => None
  | Some (a, b) => Some [(G_high, b); (G_low, a)]
  end.
Proof.
  unfold re_match, DYNAMIC_RANGE_REGEX, dyn_split. cbn [rseq].
  change (mt (RPlus dyn_cls) true s [] (fun b' t g' =>
     mt (RSeq (RChr (one 58)) (RGrp G_high (RPlus dyn_cls))) b' t ((G_low, between s t) :: g')
        (fun _ _ g => Some g))
   = match (match take_while dyn_char s, drop_while dyn_char s with
      | (_ :: _) as a, c :: r => if c =? 58 then match take_while dyn_char r with
                      | [] => None | b => Some (a, b) end else None
      | _, _ => None end) with None => None | Some (a, b) => Some [(G_high, b); (G_low, a)] end).
  rewrite (plus_det _ _ _ _ _ _ cls_dyn).
  2:{ intros b' y v Hy. cbn [mt]. rewrite cls_one, (dyn_not_colon y Hy). reflexivity. }
  rewrite between_drop.
  destruct (take_while dyn_char s) as [|a0 a] eqn:T; [reflexivity|]. rewrite <- T.
  destruct (drop_while dyn_char s) as [|c r]; [reflexivity|].
  destruct (c =? 58) eqn:E.
  - destruct (take_while dyn_char r) as [|b0 b] eqn:L.
    + cbn [mt]. rewrite cls_one, E. destruct r as [|y r]; [reflexivity|].
      apply take_while_nil in L. cbn in L. rewrite cls_dyn, L. reflexivity.
    + rewrite <- L. apply m_seq, m_chr; [rewrite cls_one; exact E|].
      apply (m_grp_plus _ _ _ _ _ _ _ _ cls_dyn); [congruence|]. intros b'. reflexivity.
  - cbn [mt]. rewrite cls_one, E. reflexivity.
Qed.

(** LABEL_VALIDATION_REGEX *)
Definition ascii_alpha (c : N) : bool :=
  ((97 <=? c) && (c <=? 122)) || ((65 <=? c) && (c <=? 90)).

(** The end of the text, possibly before one final newline. *)
Definition at_end (s : str) : bool :=
  match s with [] => true | [x] => x =? 10 | _ => false end.

Definition is_identifier (s : str) : bool :=
  match s with
  | c :: r => ascii_alpha c && at_end (drop_while isword r)
  | [] => false
  end.

Lemma newline_not_word : isword 10 = false. Proof. reflexivity. Qed.

Theorem LABEL_VALIDATION_REGEX_spec s :
  re_match LABEL_VALIDATION_REGEX s = if is_identifier s then Some [] else None.
Proof.
  unfold re_match, LABEL_VALIDATION_REGEX, is_identifier. cbn [rseq mt].
  destruct s as [|c r]; [reflexivity|].
  assert (E : cls_ok (Cls [CR 97 122; CR 65 90]) c = ascii_alpha c)
    by (cbn; rewrite orb_false_r; reflexivity).
  rewrite E. destruct (ascii_alpha c); [|reflexivity]. cbn [andb].
  rewrite star_loop_det.
  - rewrite (drop_while_ext _ _ r cls_word).
    destruct (drop_while isword r) as [|x [|y t]]; reflexivity.
  - intros b' y v Hy. rewrite cls_word in Hy. destruct v; [|reflexivity].
    replace (y =? 10) with false; [reflexivity|].
    symmetry. apply N.eqb_neq. intros ->. discriminate.
Qed.

(** ELLIPSIS_LABEL_REGEX *)
Definition is_ellipsis_label (s : str) : bool :=
  match drop_while isspace s with c :: _ => c =? 46 | [] => false end
  || match s with c :: r => (c =? 8230) && forallb isspace r | [] => false end.

Theorem ELLIPSIS_LABEL_REGEX_spec s :
  re_match ELLIPSIS_LABEL_REGEX s = if is_ellipsis_label s then Some [] else None.
Proof.
  unfold re_match, ELLIPSIS_LABEL_REGEX, is_ellipsis_label. cbn [rseq mt].
  assert (E46 : forall y, cls_ok (Cls [CI 46; CI 46; CI 46]) y = (y =? 46)).
  { intros y. cbn. destruct (y =? 46); reflexivity. }
  rewrite star_loop_det.
  2:{ intros b' y v Hy. rewrite cls_space in Hy. rewrite E46.
      replace (y =? 46) with false; [reflexivity|].
      symmetry. apply N.eqb_neq. intros ->. discriminate. }
  rewrite (drop_while_ext _ _ s cls_space).
  destruct (drop_while isspace s) as [|x t] eqn:D; [|rewrite E46; destruct (x =? 46); [reflexivity|]];
  cbn [orb]; (destruct s as [|c r]; [reflexivity|]; rewrite cls_one;
    destruct (c =? 8230); [|reflexivity]; cbn [andb];
    destruct (forallb isspace r) eqn:F;
    [ apply star_loop_greedy;
      rewrite (drop_while_ext _ _ r cls_space), <- (app_nil_r r), (drop_while_unique isspace r []) by (exact F || exact I);
      reflexivity
    | apply star_loop_none; intros b' u v -> Hu;
      assert (Hs : forallb isspace u = true)
        by (rewrite <- Hu; apply forallb_ext'; intros y; symmetry; apply cls_space);
      rewrite forallb_app, Hs in F; cbn in F;
      destruct v as [|y [|z v]]; [discriminate | | reflexivity];
      destruct (y =? 10) eqn:E; [|reflexivity];
      apply N.eqb_eq in E; subst y; discriminate ]).
Qed.

(** TABLE_ID_REGEX *)
Definition s_Figure : str := Eval compute in utf8 "Figure"%string.
Definition s_Figure_sp : str := Eval compute in utf8 "Figure "%string.

Definition table_id_split (s : str) : option str :=
  if startswith s_Figure_sp s then
    let r := skipn (List.length s_Figure_sp) s in
    match take_while isdigit r, drop_while isdigit r with
    | (_ :: _) as d, c :: _ => if c =? 58 then Some d else None
    | _, _ => None
    end
  else None.

Lemma skipn_app_len {A} (p t : list A) : skipn (List.length p) (p ++ t) = t.
Proof. induction p; cbn; auto. Qed.

Theorem TABLE_ID_REGEX_spec s :
  re_match TABLE_ID_REGEX s =
  match table_id_split s with None => None | Some d => Some [(G_id, d)] end.
Proof.
  unfold re_match, TABLE_ID_REGEX, table_id_split.
  change (utf8 "Figure "%string) with s_Figure_sp.
  cbn [rseq].
  change (mt (rlit s_Figure_sp) true s [] (fun b t g =>
     mt (RSeq (RGrp G_id (RPlus (Cls [CD]))) (RSeq (RChr (one 58)) (RStar AnyNL))) b t g (fun _ _ g => Some g))
     = match (if startswith s_Figure_sp s then
         match take_while isdigit (skipn (List.length s_Figure_sp) s), drop_while isdigit (skipn (List.length s_Figure_sp) s) with
         | (_ :: _) as d, c :: _ => if c =? 58 then Some d else None | _, _ => None end else None) with
       None => None | Some d => Some [(G_id, d)] end).
  destruct (startswith s_Figure_sp s) eqn:S.
  2:{ apply rlit_none. exact S. }
  apply startswith_app in S as (t & ->). rewrite skipn_app_len, rlit_app.
  cbn [s_Figure_sp].
  set (k := fun (b' : bool) (u : str) (g : caps) =>
        mt (RSeq (RChr (one 58)) (RStar AnyNL)) b' u ((G_id, between t u) :: g) (fun _ _ g => Some g)).
  change (mt (RPlus (Cls [CD])) false t [] k
    = match (match take_while isdigit t, drop_while isdigit t with
         | (_ :: _) as d, c :: _ => if c =? 58 then Some d else None | _, _ => None end) with
       None => None | Some d => Some [(G_id, d)] end).
  rewrite (plus_det _ _ _ _ _ _ cls_digit).
  2:{ intros b' y v Hy. unfold k. cbn [mt]. rewrite cls_one.
      replace (y =? 58) with false; [reflexivity|].
      symmetry. apply N.eqb_neq. intros ->. discriminate. }
  unfold k. rewrite between_drop.
  destruct (take_while isdigit t) as [|d0 d]; [reflexivity|].
  destruct (drop_while isdigit t) as [|c r]; [reflexivity|]. cbn [mt]. rewrite cls_one.
  destruct (c =? 58); [|reflexivity]. apply star_loop_greedy. reflexivity.
Qed.

(** FIG_ID_REGEX *)
Definition fig_id_char (c : N) : bool := negb (isspace c || (c =? 94) || (c =? 58)).

Lemma cls_fig_id c : cls_ok (NCls [CS; CI 94; CI 58]) c = fig_id_char c.
Proof. unfold fig_id_char. cbn. rewrite orb_false_r, !orb_assoc. reflexivity. Qed.

Definition fig_id_split (s : str) : option str :=
  if startswith s_Figure s then
    let r := skipn (List.length s_Figure) s in
    match take_while isspace r, take_while fig_id_char (drop_while isspace r) with
    | _ :: _, (_ :: _) as d => Some d
    | _, _ => None
    end
  else None.

Theorem FIG_ID_REGEX_spec s :
  re_match FIG_ID_REGEX s =
  match fig_id_split s with None => None | Some d => Some [(G_id, d)] end.
Proof.
  unfold re_match, FIG_ID_REGEX, fig_id_split.
  change (utf8 "Figure"%string) with s_Figure.
  cbn [rseq].
  change (mt (rlit s_Figure) true s [] (fun b t g =>
     mt (RSeq (RPlus (Cls [CS])) (RSeq (RGrp G_id (RPlus (NCls [CS; CI 94; CI 58]))) (RStar AnyNL))) b t g (fun _ _ g => Some g))
     = match (if startswith s_Figure s then
         match take_while isspace (skipn (List.length s_Figure) s),
               take_while fig_id_char (drop_while isspace (skipn (List.length s_Figure) s)) with
         | _ :: _, (_ :: _) as d => Some d | _, _ => None end else None) with
       None => None | Some d => Some [(G_id, d)] end).
  destruct (startswith s_Figure s) eqn:S.
  2:{ apply rlit_none. exact S. }
  apply startswith_app in S as (t & ->). rewrite skipn_app_len, rlit_app.
  cbn [s_Figure].
  set (k := fun (b' : bool) (u : str) (g : caps) =>
        mt (RSeq (RGrp G_id (RPlus (NCls [CS; CI 94; CI 58]))) (RStar AnyNL)) b' u g (fun _ _ g => Some g)).
  change (mt (RPlus (Cls [CS])) false t [] k
    = match (match take_while isspace t, take_while fig_id_char (drop_while isspace t) with
         | _ :: _, (_ :: _) as d => Some d | _, _ => None end) with
       None => None | Some d => Some [(G_id, d)] end).
  rewrite (plus_det _ _ _ _ _ _ cls_space).
  2:{ intros b' y v Hy. unfold k. cbn [mt]. rewrite cls_fig_id. unfold fig_id_char. rewrite Hy. reflexivity. }
  destruct (take_while isspace t) as [|d0 d]; [reflexivity|].
  set (u := drop_while isspace t).
  destruct (take_while fig_id_char u) as [|e0 e] eqn:L.
  - unfold k. cbn [mt]. apply take_while_nil in L. destruct u as [|y u']; [reflexivity|].
    cbn in L. rewrite cls_fig_id, L. reflexivity.
  - rewrite <- L. unfold k. apply m_seq, (m_grp_plus _ _ _ _ _ _ _ _ cls_fig_id); [congruence|].
    intros b'. apply (m_star _ not_nl); [reflexivity|]. reflexivity.
Qed.
