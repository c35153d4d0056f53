(** Proofs about the list parser of the docx stage. *)
From Coq Require Import NArith ZArith List Bool String Lia.
From Verif Require Import PyStr PyStrFacts Docx SpecQuery SpecRuns SpecList QueryProofs RunProofs.
Import ListNotations.
Local Open Scope string_scope.
Local Open Scope list_scope.

Section Lists.
Variable d : docx.

Lemma item_places_sub chain n l its : item_places chain n (LSub l its) = places (chain ++ [(l, n)]) n its.
Proof.
  cbn [item_places]. set (c := chain ++ [(l, n)]). clearbody c. clear. revert n.
  induction its as [|i its IH]; intros n; [reflexivity|]. cbn [places]. rewrite IH. reflexivity.
Qed.

(** What the program reads of a paragraph. *)
Lemma list_number_iff p n : p_num_id p = DOk n <-> list_number p n.
Proof. apply first_number_iff. Qed.
Lemma list_level_iff p i : p_ilvl p = DOk i <-> list_level p i.
Proof. apply first_number_iff. Qed.
Lemma z_get_first {V} k (l : list (Z * V)) v : z_get k l = Some v <-> first_with (fun x => fst x = k) l (k, v).
Proof.
  unfold z_get. split.
  - induction l as [|[k' v'] l IH]; cbn [find fst]; [discriminate|]. destruct (Z.eqb_spec k' k) as [->|N].
    + intros [= ->]. exists [], l. split; [reflexivity|]. split; [reflexivity | constructor].
    + intros H. destruct (IH H) as (l1 & l2 & -> & _ & F). exists ((k', v') :: l1), l2. split; [reflexivity|]. split; [reflexivity|]. constructor; [exact N | exact F].
  - intros (l1 & l2 & -> & _ & F). induction F as [|[k' v'] l1 N F IH]; cbn [app find fst].
    + rewrite Z.eqb_refl. reflexivity.
    + destruct (Z.eqb_spec k' k) as [->|_]; [exfalso; apply N; reflexivity | exact IH].
Qed.
Lemma numbered_iff n a ls : p_style d n = DOk (a, ls) <-> numbered d n a ls.
Proof.
  unfold p_style, numbered, num_style. destruct (dx_num d) as [m|]; [|split; [discriminate | intros (_ & m & X & _); discriminate]].
  destruct (Z.eqb_spec n 0) as [->|NZ]; [split; [discriminate | intros [X _]; congruence]|].
  destruct (z_get n (n_nums m)) as [a'|] eqn:A.
  - destruct (z_get a' (n_abs m)) as [ls'|] eqn:L.
    + split.
      * intros [= -> ->]. split; [exact NZ|]. exists m. split; [reflexivity|]. split; apply z_get_first; assumption.
      * intros (_ & m' & [= <-] & X & Y). apply z_get_first in X, Y. rewrite A in X. injection X as ->. rewrite L in Y. injection Y as ->. reflexivity.
    + split; [discriminate|]. intros (_ & m' & [= <-] & X & Y). apply z_get_first in X, Y. rewrite A in X. injection X as ->. congruence.
  - split; [discriminate|]. intros (_ & m' & [= <-] & X & Y). apply z_get_first in X. congruence.
Qed.
Lemma known_list_iff n m : dx_num d = Some m -> (known_list d n <-> z_get n (n_nums m) <> None).
Proof.
  intros E. unfold known_list, z_get. rewrite E. split.
  - intros (m' & [= <-] & I). apply in_map_iff in I as ([k v] & K & I). cbn in K. subst k. destruct (find _ (n_nums m)) as [x|] eqn:F; [discriminate|].
    pose proof (find_none _ _ F _ I) as X. cbn in X. rewrite Z.eqb_refl in X. discriminate.
  - intros N. exists m. split; [reflexivity|]. destruct (find _ (n_nums m)) as [[k v]|] eqn:F; [|congruence]. apply find_some in F as [I X]. cbn in X. apply Z.eqb_eq in X. subst k.
    apply in_map_iff. exists (n, v). auto.
Qed.
Lemma not_listed_iff p : is_list_p d p = DOk false <-> not_listed d p.
Proof.
  unfold is_list_p, not_listed, p_num, list_number, first_number. destruct (attr_first ["w:pPr"; "w:numPr"; "w:numId"] "w:val" p) as [s|] eqn:A.
  - assert (V := proj1 (first_value_iff _ _ _ _) A). destruct (dx_num d) as [m|] eqn:M; [|tauto].
    unfold has_num_id, d_int. split.
    + destruct (py_int s) as [z|] eqn:P; cbn [dbind]; [|discriminate]. destruct (z_get z (n_nums m)) eqn:G; [discriminate|]. intros _.
      right. right. exists z. split; [eauto|]. intros K. apply (known_list_iff z m M) in K. congruence.
    + intros [N|[N|(n & (s' & V' & P) & K)]]; [exfalso; exact (N _ V) | discriminate|]. rewrite (first_value_det _ _ _ _ _ V V'), P. cbn [dbind].
      destruct (z_get n (n_nums m)) eqn:G; [|reflexivity]. exfalso. apply K, (known_list_iff n m M). congruence.
  - assert (N := proj1 (no_value_iff _ _ _) A). tauto.
Qed.
Lemma listed_iff p : is_list_p d p = DOk true <-> exists n, list_number p n /\ known_list d n.
Proof.
  unfold is_list_p, p_num, list_number, first_number. destruct (attr_first ["w:pPr"; "w:numPr"; "w:numId"] "w:val" p) as [s|] eqn:A.
  - assert (V := proj1 (first_value_iff _ _ _ _) A). destruct (dx_num d) as [m|] eqn:M.
    + unfold has_num_id, d_int. split.
      * destruct (py_int s) as [z|] eqn:P; cbn [dbind]; [|discriminate]. destruct (z_get z (n_nums m)) eqn:G; [|discriminate]. intros _.
        exists z. split; [eauto|]. apply (known_list_iff z m M). congruence.
      * intros (n & (s' & V' & P) & K). rewrite (first_value_det _ _ _ _ _ V V'), P. cbn [dbind]. apply (known_list_iff n m M) in K. destruct (z_get n (n_nums m)); [reflexivity | congruence].
    + split; [discriminate|]. intros (n & _ & (m & X & _)). congruence.
  - split; [discriminate|]. intros (n & (s & V & _) & _). apply first_value_iff in V. congruence.
Qed.
Lemma numbered_known n a ls : numbered d n a ls -> known_list d n.
Proof. intros (_ & m & M & (l1 & l2 & E & _ & _) & _). exists m. split; [exact M|]. rewrite E, map_app. apply in_or_app. right. left. reflexivity. Qed.
Lemma level_at_iff ls i l : get_ilvl ls i = DOk l <-> level_at ls i l.
Proof.
  unfold get_ilvl, py_index, level_at. destruct (Z.ltb_spec i 0) as [L|L].
  - replace (0 <=? i)%Z with false by (symmetry; apply Z.leb_gt; lia). destruct (Z.ltb_spec (i + Z.of_nat (List.length ls)) 0) as [L2|L2].
    + split; [discriminate | intros [B _]; lia].
    + replace (Z.to_nat (i + Z.of_nat (List.length ls))) with (List.length ls - Z.to_nat (- i))%nat by lia.
      destruct (nth_error ls _) as [x|]; [|split; [discriminate | intros [_ X]; discriminate]]. split; [intros [= ->]; split; [lia | reflexivity] | intros [_ X]; congruence].
  - replace (0 <=? i)%Z with true by (symmetry; apply Z.leb_le; lia). replace (i <? 0)%Z with false by (symmetry; apply Z.ltb_ge; lia).
    destruct (nth_error ls _) as [x|]; [|split; discriminate]. split; congruence.
Qed.
Lemma list_par_iff p a i : list_par d p a i <->
  w_tag p = utf8 "w:p" /\ is_list_p d p = DOk true /\ (exists n ls, p_num_id p = DOk n /\ p_style d n = DOk (a, ls)) /\ p_ilvl p = DOk i.
Proof.
  unfold list_par. rewrite listed_iff, list_level_iff. split.
  - intros (T & (n & ls & N & S) & L). split; [exact T|]. split; [exists n; split; [exact N | exact (numbered_known _ _ _ S)]|].
    split; [exists n, ls; split; [apply list_number_iff; exact N | apply numbered_iff; exact S] | exact L].
  - intros (T & _ & (n & ls & N & S) & L). split; [exact T|]. split; [|exact L]. exists n, ls. split; [apply list_number_iff; exact N | apply numbered_iff; exact S].
Qed.
Lemma level_props_iff p l : level_props d p l <-> exists n a ls i, p_num_id p = DOk n /\ p_style d n = DOk (a, ls) /\ p_ilvl p = DOk i /\ get_ilvl ls i = DOk l.
Proof.
  unfold level_props. split; intros (n & a & ls & i & N & S & L & G); exists n, a, ls, i;
    (split; [apply list_number_iff; exact N|]; split; [apply numbered_iff; exact S|]; split; [apply list_level_iff; exact L | apply level_at_iff; exact G]).
Qed.
Lemma list_level_det p a i a' i' : list_par d p a i -> list_par d p a' i' -> i = i' /\ a = a'.
Proof.
  rewrite !list_par_iff. intros (_ & _ & (n & ls & N & S) & L) (_ & _ & (n' & ls' & N' & S') & L').
  assert (n = n') as <- by congruence. assert (a = a') by congruence. split; congruence.
Qed.

Definition chain_of (open : list opened) : list (lvl * nat) := map (fun o => (o_props o, o_first o)) (List.rev open).
Lemma chain_cons o open : chain_of (o :: open) = chain_of open ++ [(o_props o, o_first o)].
Proof. unfold chain_of. cbn [List.rev]. rewrite map_app. reflexivity. Qed.

Lemma outline_app a n open ps out open1 ps2 out2 open2 : outline d a n open ps out open1 ->
  outline d a (n + List.length ps) open1 ps2 out2 open2 -> outline d a n open (ps ++ ps2) (out ++ out2) open2.
Proof.
  induction 1; intros HX; cbn [app].
  - cbn in HX. rewrite Nat.add_0_r in HX. exact HX.
  - econstructor; try eassumption. apply IHoutline. cbn [List.length] in HX. rewrite Nat.add_succ_r in HX. exact HX.
  - eapply ol_open; try eassumption. apply IHoutline. cbn [List.length] in HX. rewrite Nat.add_succ_r in HX. exact HX.
Qed.
Lemma outline_length a n open ps out open' : outline d a n open ps out open' -> List.length out = List.length ps.
Proof. induction 1; cbn [List.length]; congruence. Qed.

Lemma close_deep j deep o : Forall (fun x => (j < o_level x)%Z) deep -> close j (deep ++ o) = close j o.
Proof. induction 1 as [|x deep H _ IH]; cbn [app close]; [reflexivity|]. destruct (Z.ltb_spec j (o_level x)); [exact IH | lia]. Qed.

(** A paragraph above level [j] closes the lists on levels from [j]. *)
Lemma outline_closed a n deep base ps out open' j : Forall (fun x => (j <= o_level x)%Z) deep ->
  match ps with [] => False | p :: _ => exists i, list_par d p a i /\ (i < j)%Z end ->
  outline d a n base ps out open' -> outline d a n (deep ++ base) ps out open'.
Proof.
  intros F H O. assert (X : forall i, (i < j)%Z -> close i (deep ++ base) = close i base).
  { intros i I. apply close_deep. eapply Forall_impl; [|exact F]. cbn. intros. lia. }
  destruct O as [ | ? ? p i sps o rest ps out open' P S C E O | ? ? p i sps o rest l ps out open' P S C E L O]; [destruct H | |];
    destruct H as (i' & P' & LT); assert (i' = i) as -> by (exact (proj1 (list_level_det _ _ _ _ _ P' P))).
  - econstructor; try eassumption. rewrite X by exact LT. exact C.
  - eapply ol_open; try eassumption. rewrite X by exact LT. exact C.
Qed.

Lemma list_head_props p l a i : list_head d p = DOk (l, a, i) -> level_props d p l /\ p_ilvl p = DOk i /\ exists n ls, p_num_id p = DOk n /\ p_style d n = DOk (a, ls).
Proof.
  unfold list_head. destruct (negb (is_tag "w:p" p)); [discriminate|].
  destruct (p_num_id p) as [n| |] eqn:N; cbn [dbind]; try discriminate.
  destruct (p_style d n) as [[a' ls]| |] eqn:ST; cbn [dbind]; try discriminate.
  destruct (p_ilvl p) as [i'| |] eqn:I; cbn [dbind]; try discriminate.
  destruct (get_ilvl ls i') as [l'| |] eqn:G; cbn [dbind]; try discriminate. intros [= <- <- <-].
  split; [apply level_props_iff; exists n, a', ls, i'; auto|]. split; [reflexivity|]. exists n, ls. auto.
Qed.

(** What parsing the elements of a list on level [i] gives. *)
Definition elems_ok (a i : Z) (st : list welem) (its : list litem) (st' : list welem) : Prop :=
  exists ps, st = ps ++ st' /\ ends_list d a i st' /\ Forall begun its
    /\ (forall p j ps', ps = p :: ps' -> list_par d p a j -> j = i -> exists sps its', its = LItem sps :: its')
    /\ (forall p r, st = p :: r -> list_par d p a i -> ps <> [])
    /\ Forall (fun p => exists j, list_par d p a j /\ (i <= j)%Z) ps
    /\ forall n o open, o_level o = i ->
         exists deep, outline d a n (o :: open) ps (places (chain_of (o :: open)) n its) (deep ++ o :: open)
           /\ Forall (fun x => (i < o_level x)%Z) deep.

Lemma list_elems_ok : forall fuel st a i its st', list_elems d fuel st a i = DOk (its, st') -> elems_ok a i st its st'.
Proof.
  induction fuel as [|f IH]; intros st a i its st' H; cbn [list_elems] in H; [discriminate|].
  assert (STOP : forall st0, ends_list d a i st0 -> (forall p r, st0 = p :: r -> ~ list_par d p a i) -> elems_ok a i st0 [] st0).
  { intros st0 E NL. exists []. split; [reflexivity|]. split; [exact E|]. split; [constructor|]. split; [intros p j ps' X; discriminate|].
    split; [intros p r X Y; exfalso; exact (NL p r X Y)|]. split; [constructor|]. intros n o open _. exists []. split; constructor. }
  destruct st as [|p rest]; [injection H as <- <-; apply STOP; [exact I | discriminate]|].
  destruct (is_tag "w:p" p) eqn:TG; cbn [negb] in H;
    [|injection H as <- <-; unfold is_tag in TG; assert (w_tag p <> utf8 "w:p") as NT by (intros X; rewrite X, seqb_refl in TG; discriminate);
      apply STOP; [left; exact NT | intros q r [= <- <-] (X & _); contradiction]].
  unfold is_tag in TG. apply seqb_eq in TG.
  destruct (is_list_p d p) as [[]| |] eqn:LP; cbn [dbind negb] in H; try discriminate;
    [|injection H as <- <-; apply STOP; [right; left; apply not_listed_iff; exact LP | intros q r [= <- <-] X; apply list_par_iff in X as (_ & X & _); congruence]].
  destruct (p_num_id p) as [n| |] eqn:N; cbn [dbind] in H; try discriminate.
  destruct (p_style d n) as [[b ls]| |] eqn:ST; cbn [dbind] in H; try discriminate.
  destruct (Z.eqb_spec b a) as [->|NB]; cbn [negb] in H;
    [|injection H as <- <-; apply STOP; [right; right; right; exists n, b, ls; split; [apply list_number_iff; exact N|]; split; [apply numbered_iff; exact ST | exact NB] |
       intros q r [= <- <-] X; apply list_par_iff in X as (_ & _ & (n' & ls' & N' & S') & _); rewrite N in N'; injection N' as <-; rewrite ST in S'; congruence]].
  destruct (p_ilvl p) as [j| |] eqn:LV; cbn [dbind] in H; try discriminate.
  assert (LPAR : list_par d p a j) by (apply list_par_iff; split; [exact TG|]; split; [exact LP|]; split; [exists n, ls; auto | exact LV]).
  destruct (Z.ltb_spec i j) as [DEEP|NDEEP].
  - destruct (list_head d p) as [[[l a'] j']| |] eqn:HD; cbn [dbind] in H; try discriminate.
    destruct (list_head_props _ _ _ _ HD) as (LPR & LV' & (n' & ls' & N' & S')).
    assert (j' = j) as -> by congruence. assert (a' = a) as -> by (rewrite N in N'; injection N' as <-; rewrite ST in S'; congruence).
    destruct (list_elems d f (p :: rest) a j) as [[sub st1]| |] eqn:E1; cbn [dbind] in H; try discriminate.
    destruct (list_elems d f st1 a i) as [[more st2]| |] eqn:E2; cbn [dbind] in H; try discriminate. injection H as <- <-.
    destruct (IH _ _ _ _ _ E1) as (ps1 & EQ1 & END1 & BG1 & ITEM1 & CONS1 & ALL1 & OUT1).
    destruct (IH _ _ _ _ _ E2) as (ps2 & EQ2 & END2 & BG2 & _ & _ & ALL2 & OUT2).
    pose proof (CONS1 p rest eq_refl LPAR) as NE1. destruct ps1 as [|p1 ps1]; [congruence|].
    cbn [app] in EQ1. injection EQ1 as <- EQ1. destruct (ITEM1 p j ps1 eq_refl LPAR eq_refl) as (sps & its' & ->).
    exists ((p :: ps1) ++ ps2). split; [cbn [app]; rewrite <- app_assoc, <- EQ2, <- EQ1; reflexivity|]. split; [exact END2|].
    split; [constructor; [constructor; inversion BG1; assumption | exact BG2]|].
    split; [intros q k ps' [= <- _] L' ->; exfalso; pose proof (proj1 (list_level_det _ _ _ _ _ LPAR L')); lia|].
    split; [discriminate|]. split; [apply Forall_app; split; [|exact ALL2]; eapply Forall_impl; [|exact ALL1]; cbn; intros q (k & Q & L); exists k; split; [exact Q | lia]|].
    intros m o open LO. cbn [places]. rewrite item_places_sub.
    set (o1 := mkOpen j l m). destruct (OUT1 m o1 (o :: open) eq_refl) as (deep1 & O1 & F1).
    assert (CH : chain_of (o :: open) ++ [(l, m)] = chain_of (o1 :: o :: open)) by (rewrite (chain_cons o1); reflexivity). rewrite CH.
    pose proof (outline_length _ _ _ _ _ _ O1) as LEN.
    destruct (OUT2 (m + List.length (p :: ps1)) o open LO) as (deep2 & O2 & F2).
    (* opening the sublist *)
    assert (O1' : outline d a m (o :: open) (p :: ps1) (places (chain_of (o1 :: o :: open)) m (LItem sps :: its')) (deep1 ++ o1 :: o :: open)).
    { inversion O1 as [ | ? ? ? i' sps' o' rest' ? out' ? P SP C E O EP EO | ? ? ? i' sps' o' rest' l' ? out' ? P SP C E L O]; subst.
      - assert (o_level o' = j) as EJ by (exact (proj1 (list_level_det _ _ _ _ _ P LPAR))). rewrite EJ in C. cbn [close] in C. change (o_level o1) with j in C. rewrite Z.ltb_irrefl in C. injection C as <- <-.
        eapply (ol_open d a m (o :: open) p j _ o open l); try eassumption; cbn [close]. destruct (Z.ltb_spec j (o_level o)); [lia | reflexivity].
      - exfalso. assert (i' = j) as -> by (exact (proj1 (list_level_det _ _ _ _ _ P LPAR))). cbn [close] in C. change (o_level o1) with j in C. rewrite Z.ltb_irrefl in C. injection C as <- <-. change (o_level o1) with j in E. lia. }
    rewrite LEN. destruct ps2 as [|q ps2].
    + rewrite app_nil_r. assert (places (chain_of (o :: open)) (m + List.length (p :: ps1)) more = []) as -> by (apply outline_length in O2; destruct (places _ _ more); [reflexivity | discriminate O2]). exists (deep1 ++ [o1]). split.
      * rewrite app_nil_r, <- app_assoc. exact O1'.
      * apply Forall_app. split; [eapply Forall_impl; [|exact F1]; cbn; intros; lia | repeat constructor; exact DEEP].
    + exists deep2. split; [|exact F2]. eapply outline_app; [exact O1'|].
      replace (deep1 ++ o1 :: o :: open) with ((deep1 ++ [o1]) ++ o :: open) by (rewrite <- app_assoc; reflexivity).
      apply (outline_closed a _ _ _ _ _ _ j); [apply Forall_app; split; [eapply Forall_impl; [|exact F1]; cbn; intros; lia | repeat constructor; cbn; lia] | | exact O2].
      rewrite EQ2 in END1. cbn [app ends_list] in END1. inversion ALL2 as [|? ? (k & Q & LK) _]; subst.
      exists k. split; [exact Q|]. pose proof (proj1 (list_par_iff _ _ _) Q) as (Q1 & Q2 & (nq & lq & Q3 & Q4) & Q5).
      destruct END1 as [X|[X|[(k' & Q' & X)|(n2 & b & ls2 & X1 & X2 & X3)]]]; [contradiction | apply not_listed_iff in X; congruence | rewrite (proj1 (list_level_det _ _ _ _ _ Q Q')); exact X |].
      apply list_number_iff in X1. apply numbered_iff in X2. rewrite X1 in Q3. injection Q3 as <-. rewrite X2 in Q4. congruence.
  - destruct (Z.ltb_spec j i) as [UP|NUP].
    + injection H as <- <-. apply STOP; [right; right; left; exists j; auto|]. intros q r [= <- <-] X. pose proof (proj1 (list_level_det _ _ _ _ _ LPAR X)). lia.
    + assert (j = i) as -> by lia. destruct (parse_spans d p) as [sps| |] eqn:SP; cbn [dbind] in H; try discriminate.
      destruct (list_elems d f rest a i) as [[more st1]| |] eqn:E; cbn [dbind] in H; try discriminate. injection H as <- <-.
      destruct (IH _ _ _ _ _ E) as (ps & EQ & END & BG & _ & _ & ALL & OUT).
      exists (p :: ps). split; [cbn [app]; congruence|]. split; [exact END|]. split; [constructor; [constructor | exact BG]|].
      split; [intros q k ps' _ _ _; eauto|]. split; [discriminate|]. split; [constructor; [exists i; split; [exact LPAR | lia] | exact ALL]|].
      intros m o open LO. cbn [places item_places List.length app]. rewrite Nat.add_1_r.
      destruct (OUT (S m) o open LO) as (deep & O & F). exists deep. split; [|exact F].
      eapply ol_item; try eassumption; [apply par_spans_iff; exact SP|]. cbn [close]. rewrite LO, Z.ltb_irrefl. reflexivity.
Qed.

(** ** Fuel *)

Lemma list_par_get a p rest fuel i its st' : list_elems d (S fuel) (p :: rest) a i = DOk (its, st') -> list_par d p a i ->
  (List.length st' <= List.length rest)%nat.
Proof.
  intros H P. destruct (list_elems_ok _ _ _ _ _ _ H) as (ps & E & _ & _ & _ & C & _). specialize (C p rest eq_refl P).
  destruct ps as [|q ps]; [congruence|]. cbn [app] in E. injection E as _ ->. rewrite app_length. lia.
Qed.
End Lists.
