(** From the words of a command line to what it says. *)
From Coq Require Import NArith ZArith List Bool String Lia.
From Verif Require Import PyStr PyStrFacts Lint Cli Disk Args SpecText SpecArgs ArgsProofs.
Import ListNotations.
Local Open Scope string_scope.
Local Open Scope list_scope.
Local Open Scope N_scope.

Lemma prepend_app a b r : prepend (a ++ b) r = prepend a (prepend b r).
Proof. unfold prepend. cbn [fst snd]. rewrite app_assoc. reflexivity. Qed.
Lemma prepend_nil r : prepend [] r = r.
Proof. destruct r. reflexivity. Qed.
Lemma flush_after had run : after_flush (after_flush had run) [] = after_flush had run.
Proof. reflexivity. Qed.

(** ** Reading what has been written *)

(** The word is not "--". *)
Lemma stands_dashes w name : stands w name -> seqb w (utf8 "--") = false.
Proof.
  intros S0. destruct (stands_opt _ _ S0) as (_ & _ & _ & _ & t & -> & N). destruct (seqb _ _) eqn:E; [|reflexivity]. apply seqb_iff in E.
  vm_compute in E. injection E as E. congruence.
Qed.
Lemma words_cons s r w : seqb s (utf8 "--") = false -> parse_optional s = Some w ->
  words (s :: r) = match words r with Some ws => Some (w :: ws) | None => None end.
Proof. intros A B. cbn [words]. rewrite A, B. destruct (words r); reflexivity. Qed.
Lemma eq_dashes w v : seqb (w ++ 61 :: v) (utf8 "--") = false.
Proof.
  destruct (seqb _ _) eqn:E; [|reflexivity]. apply seqb_iff in E. exfalso.
  assert (X : In 61 (utf8 "--")) by (rewrite <- E; apply in_or_app; right; left; reflexivity). vm_compute in X. destruct X as [X|[X|[]]]; discriminate.
Qed.
Lemma short_dashes c o r : lettered c o -> seqb (45 :: c :: r) (utf8 "--") = false.
Proof.
  intros L. destruct (seqb _ _) eqn:E; [|reflexivity]. apply seqb_iff in E. vm_compute in E. injection E as E _. destruct (lettered_not_dash _ _ L E).
Qed.
(** One option: its words, and what becomes of them. *)
Definition reads_item (ws : list str) (xs : list setting) : Prop :=
  exists W, (forall rest, words (ws ++ rest) = match words rest with Some r => Some (W ++ r) | None => None end)
    /\ forall r had extra run, consume (W ++ r) had extra run = prepend (flush run ++ map t_of xs) (consume r (after_flush had run) extra []).
Lemma one_word s w l : seqb s (utf8 "--") = false -> parse_optional s = Some w ->
  (exists o sh e q, w = WOpt o sh e q /\ read_word o sh e q = RTaken (map t_of l) false) -> reads_item [s] l.
Proof.
  intros A B (o & sh & e & q & -> & R). exists [WOpt o sh e q]. split.
  - intros rest. cbn [app]. apply words_cons; assumption.
  - intros r had extra run. cbn [app consume]. rewrite R, orb_false_r. reflexivity.
Qed.
Lemma two_words s v w l l0 o' : seqb s (utf8 "--") = false -> parse_optional s = Some w -> operand v ->
  (exists o sh e q, w = WOpt o sh e q /\ read_word o sh e q = RNext l0 o') -> map t_of l = l0 ++ [take o' v] -> reads_item [s; v] l.
Proof.
  intros A B O (o & sh & e & q & -> & R) E. exists [WOpt o sh e q; WArg v]. split.
  - intros rest. cbn [app]. rewrite (words_cons _ _ _ A B).
    rewrite (words_cons v rest (WArg v)); [|apply operand_dashes; exact O | apply operand_iff; split; [exact O | reflexivity]].
    destruct (words rest); reflexivity.
  - intros r had extra run. cbn [app consume]. rewrite R, E. reflexivity.
Qed.
Lemma item_reads ws xs : option_item ws xs -> reads_item ws xs.
Proof.
  intros H. destruct H as [w name x S0 I | w name f v S0 I O | w name f v S0 I | cs xs N F | cs xs v F O | cs xs v F N Q | cs xs v F].
  - destruct (stands_opt _ _ S0) as (o & FO & P & _). destruct (flag_opt _ _ I) as (o' & FO' & A & T). rewrite FO in FO'. injection FO' as <-.
    apply (one_word _ _ _ (stands_dashes _ _ S0) P). exists o, false, false, None. split; [reflexivity|]. cbn [read_word]. unfold alone. rewrite A, T. reflexivity.
  - destruct (stands_opt _ _ S0) as (o & FO & P & _). destruct (valued_opt _ _ I) as (o' & FO' & A & T). rewrite FO in FO'. injection FO' as <-.
    apply (two_words _ _ _ _ [] o (stands_dashes _ _ S0) P O); [|cbn [map app]; rewrite T; reflexivity].
    exists o, false, false, None. split; [reflexivity|]. cbn [read_word]. unfold alone. rewrite A. reflexivity.
  - destruct (stands_opt _ _ S0) as (o & FO & _ & P & _). destruct (valued_opt _ _ I) as (o' & FO' & A & T). rewrite FO in FO'. injection FO' as <-.
    apply (one_word _ _ _ (eq_dashes w v) (P v)). exists o, false, true, (Some v). split; [reflexivity|]. cbn [read_word]. rewrite A, T. reflexivity.
  - destruct (exists_last N) as (cs' & c & ->). apply Forall2_app_inv_l in F as (xs1 & xs2 & F1 & F2 & ->).
    inversion F2 as [|? x ? ? L F3]; subst. inversion F3; subst. destruct (letter_opt _ _ L) as (o & LO & A & T).
    destruct (letters_then _ _ F1 _ _ [] LO) as (c0 & o0 & r0 & E & L0 & C). rewrite E.
    apply (one_word _ _ _ (short_dashes _ _ _ L0) (short_word _ _ _ L0)).
    destruct (short_read_read o0 r0) as (sh & e & q & -> & R). exists o0, sh, e, q. split; [reflexivity|]. rewrite R, C. cbn [cl]. unfold alone. rewrite A, befores_taken, T, map_app. reflexivity.
  - destruct (letters_then _ _ F _ _ [] lt_o) as (c0 & o0 & r0 & E & L0 & C). rewrite E.
    apply (two_words _ _ _ _ (map t_of xs) OOutput (short_dashes _ _ _ L0) (short_word _ _ _ L0) O); [|rewrite map_app; reflexivity].
    destruct (short_read_read o0 r0) as (sh & e & q & -> & R). exists o0, sh, e, q. split; [reflexivity|]. rewrite R, C. cbn [cl alone takes_arg]. rewrite befores_next, app_nil_r. reflexivity.
  - destruct (letters_then _ _ F _ _ v lt_o) as (c0 & o0 & r0 & E & L0 & C). rewrite E.
    apply (one_word _ _ _ (short_dashes _ _ _ L0) (short_word _ _ _ L0)).
    destruct (short_read_read o0 r0) as (sh & e & q & -> & R). exists o0, sh, e, q. split; [reflexivity|]. rewrite R, C.
    destruct v as [|d v]; [congruence|]. cbn [cl]. destruct (N.eqb_spec d 61) as [->|D]; [destruct Q; eexists; reflexivity|].
    cbn [bundle takes_arg take]. rewrite befores_taken, map_app. reflexivity.
  - destruct (letters_then _ _ F _ _ (61 :: v) lt_o) as (c0 & o0 & r0 & E & L0 & C). rewrite E.
    apply (one_word _ _ _ (short_dashes _ _ _ L0) (short_word _ _ _ L0)).
    destruct (short_read_read o0 r0) as (sh & e & q & -> & R). exists o0, sh, e, q. split; [reflexivity|]. rewrite R, C. cbn [cl N.eqb Pos.eqb].
    assert (B : bundle OOutput true v = RTaken [TOutput v] false) by (destruct v; reflexivity).
    rewrite B, befores_taken, map_app. reflexivity.
Qed.
Lemma options_read a xs : options a xs ->
  exists W, (forall rest, words (a ++ rest) = match words rest with Some r => Some (W ++ r) | None => None end)
    /\ forall r had extra run, (a <> [] \/ run = []) ->
       consume (W ++ r) had extra run = prepend (flush run ++ map t_of xs) (consume r (after_flush had run) extra []).
Proof.
  induction 1 as [|ws xs ws' xs' I O IH].
  - exists []. split; [intros rest; cbn [app]; destruct (words rest); reflexivity|]. intros r had extra run [H| ->]; [congruence|].
    cbn [flush map app after_flush]. rewrite prepend_nil. reflexivity.
  - destruct (item_reads _ _ I) as (W & E & C), IH as (W' & E' & C'). exists (W ++ W'). split.
    + intros rest. rewrite <- app_assoc, E, E'. destruct (words rest); [rewrite app_assoc|]; reflexivity.
    + intros r had extra run _. rewrite <- app_assoc, C, C' by (right; reflexivity). cbn [flush app after_flush]. rewrite <- prepend_app, <- app_assoc, map_app. reflexivity.
Qed.
Lemma operands_read ins : Forall operand ins ->
  (forall rest, words (ins ++ rest) = match words rest with Some r => Some (map WArg ins ++ r) | None => None end).
Proof.
  induction 1 as [|v ins O F IH]; intros rest; [cbn [app map]; destruct (words rest); reflexivity|]. cbn [app map].
  rewrite (words_cons v _ (WArg v)); [|apply operand_dashes; exact O | apply operand_iff; split; [exact O | reflexivity]].
  rewrite IH. destruct (words rest); reflexivity.
Qed.
Lemma args_run l r extra run : consume (map WArg l ++ r) false extra run = consume r false extra (run ++ l).
Proof.
  revert run. induction l as [|v l IH]; intros run; cbn [map app consume]; [rewrite app_nil_r; reflexivity|]. rewrite IH, <- app_assoc. reflexivity.
Qed.
Lemma flush_some run : run <> [] -> flush run = [TInputs run] /\ forall had, after_flush had run = true.
Proof. destruct run; [congruence|]. intros _. split; reflexivity. Qed.
(** The line is read as it is written. *)
Lemma line_scan argv pre ins post : line argv pre ins post ->
  scan argv = (map t_of pre ++ TInputs ins :: map t_of post, true).
Proof.
  intros [a pre' ins' b post' OA N F OB | a pre' i1 i2 OA N F]; unfold scan.
  - destruct (options_read _ _ OA) as (WA & EA & CA), (options_read _ _ OB) as (WB & EB & CB).
    rewrite EA, (operands_read _ F). specialize (EB []). rewrite app_nil_r in EB. rewrite EB. cbn [words]. rewrite app_nil_r.
    rewrite CA by (right; reflexivity). cbn [flush app after_flush]. rewrite args_run. cbn [app]. destruct (flush_some _ N) as [FL AF].
    destruct b as [|b0 b].
    + cbn [words] in EB. inversion OB as [|ws xs ws' xs' I O E1 E2].
      * subst. pose proof (CB [] false false [] (or_intror eq_refl)) as X. cbn [app] in EB. rewrite app_nil_r in EB. injection EB as <-.
        cbn [consume]. rewrite FL, AF. reflexivity.
      * exfalso. apply app_eq_nil in E1 as [-> _]. inversion I.
    + assert (NB : b0 :: b <> []) by discriminate. specialize (CB [] false false ins' (or_introl NB)). rewrite app_nil_r in CB. rewrite CB.
      rewrite FL, AF. cbn [consume flush after_flush andb negb]. unfold prepend. cbn [fst snd app]. rewrite app_nil_r. reflexivity.
  - destruct (options_read _ _ OA) as (WA & EA & CA). rewrite EA, (operands_read _ F).
    assert (D : words (utf8 "--" :: i2) = Some (WDashes :: map WArg i2)) by (cbn [words]; rewrite seqb_refl; reflexivity).
    rewrite D, CA by (right; reflexivity). cbn [flush app after_flush]. rewrite args_run. cbn [app consume].
    pose proof (args_run i2 [] false i1) as X. rewrite app_nil_r in X. rewrite X. cbn [consume]. destruct (flush_some _ N) as [FL AF]. rewrite FL, AF.
    unfold prepend. cbn [fst snd]. reflexivity.
Qed.

(** ** Writing what has been read *)

Lemma extra_false : forall n ws had run, (List.length ws <= n)%nat -> snd (consume ws had true run) = false.
Proof.
  induction n as [|n IH]; intros ws had run L; destruct ws as [|w ws]; cbn [List.length] in L; try lia.
  - cbn [consume snd]. apply andb_false_r.
  - cbn [consume snd]. apply andb_false_r.
  - assert (L' : (List.length ws <= n)%nat) by lia. cbn [consume]. destruct w as [s| |o sh e q|].
    + destruct had; apply IH; exact L'.
    + destruct had; apply IH; exact L'.
    + destruct (read_word o sh e q) as [|l u|l o']; [reflexivity | cbn [prepend snd orb]; apply IH; exact L' |].
      destruct ws as [|[v| |? ? ? ?|] ws]; try reflexivity. cbn [prepend snd]. apply IH. cbn [List.length] in L'. lia.
    + cbn [prepend snd]. apply IH. exact L'.
Qed.
Lemma extra_snd ws had run : snd (consume ws had true run) = false.
Proof. exact (extra_false _ ws had run (le_n _)). Qed.
(** A word that is an option, and what is read of it. *)
Lemma option_back s o sh e q : parse_optional s = Some (WOpt o sh e q) ->
  match read_word o sh e q with
  | RTaken l false => exists xs, option_item [s] xs /\ l = map t_of xs
  | RNext l o' => forall v, operand v -> exists xs, option_item [s; v] xs /\ l ++ [take o' v] = map t_of xs
  | _ => True
  end.
Proof.
  intros H. destruct (word_opt _ _ _ _ _ H) as [(w & name & S0 & F & -> & FORM)|(c & r & -> & L & ->)].
  - destruct S0 as (I & S1). destruct (opt_flag _ _ I F) as [(A & x & J & T)|(A & f & J & T)]; destruct FORM as [(-> & -> & ->)|(b & -> & -> & ->)]; cbn [read_word]; unfold alone; rewrite A.
    + exists [x]. split; [apply (oi_flag w name); [split; assumption | exact J] | rewrite T; reflexivity].
    + exact Logic.I.
    + intros v O. exists [f v]. split; [apply (oi_value w name); [split; assumption | exact J | exact O] | cbn [app map]; rewrite T; reflexivity].
    + exists [f b]. split; [apply (oi_equals w name); [split; assumption | exact J] | rewrite T; reflexivity].
  - pose proof (cl_inv r c o L) as C. destruct (cl o r) as [|l [|]|l o']; try exact Logic.I.
    + destruct C as [(xs & FF & ->)|(cs & xs & v & FF & -> & [(E & N & Q)|E])].
      * exists xs. split; [apply oi_letters; [discriminate | exact FF] | reflexivity].
      * exists (xs ++ [Output v]). rewrite E. split; [apply oi_dir_here; assumption | reflexivity].
      * exists (xs ++ [Output v]). rewrite E. split; [apply oi_dir_equals; assumption | reflexivity].
    + destruct C as (cs & xs & FF & E & -> & ->). intros v O. exists (xs ++ [Output v]). rewrite E. split; [apply oi_dir; assumption|]. rewrite map_app. reflexivity.
Qed.
Lemma not_dashes s : parse_optional s <> Some WDashes.
Proof.
  intros P. unfold parse_optional in P. destruct s as [|c s]; [discriminate|]. destruct (negb (c =? 45)); [discriminate|].
  destruct (find_option (c :: s)); [discriminate|]. destruct s as [|d s]; [discriminate|].
  destruct (match partition_eq (c :: d :: s) with
            | Some (a, b) => match find_option a with Some o => Some (WOpt o (is_short a) true (Some b)) | None => None end
            | None => None end) as [w|] eqn:E.
  - destruct (partition_eq (c :: d :: s)) as [[a b]|]; [|discriminate]. destruct (find_option a); [|discriminate]. injection E as <-. discriminate.
  - destruct (option_tuples (c :: d :: s)) as [|w [|? ?]] eqn:T; [destruct (_ || _); discriminate | | discriminate]. injection P as ->.
    destruct (tuples_opts (c :: d :: s) WDashes) as (? & ? & ? & ? & X); [rewrite T; left; reflexivity | discriminate X].
Qed.
Lemma words_inv s r ws : words (s :: r) = Some ws ->
  (s = utf8 "--" /\ ws = WDashes :: map WArg r)
  \/ exists w ws', parse_optional s = Some w /\ words r = Some ws' /\ ws = w :: ws'.
Proof.
  cbn [words]. destruct (seqb s (utf8 "--")) eqn:E.
  - intros [= <-]. left. split; [apply seqb_iff; exact E | reflexivity].
  - destruct (parse_optional s) as [w|]; [|discriminate]. destruct (words r) as [ws'|]; [|discriminate]. intros [= <-]. right. exists w, ws'. repeat split.
Qed.
Lemma prepend_inv l r acts ok : prepend l r = (acts, ok) -> exists acts', r = (acts', ok) /\ acts = l ++ acts'.
Proof. destruct r as [a b]. unfold prepend. cbn [fst snd]. intros [= <- <-]. exists a. split; reflexivity. Qed.
Lemma dashes_run r run : consume (map WArg r) false false run = (flush (run ++ r), after_flush false (run ++ r)).
Proof.
  pose proof (args_run r [] false run) as X. rewrite app_nil_r in X. rewrite X. cbn [consume negb]. rewrite andb_true_r. reflexivity.
Qed.
(** After the inputs there are only options. *)
Lemma back_options : forall n argv ws acts, (List.length argv <= n)%nat -> words argv = Some ws -> consume ws true false [] = (acts, true) ->
  exists xs, options argv xs /\ acts = map t_of xs.
Proof.
  induction n as [|n IH]; intros argv ws acts L W C; destruct argv as [|s r]; cbn [List.length] in L; try lia.
  - injection W as <-. cbn [consume] in C. injection C as <-. exists []. split; [constructor | reflexivity].
  - injection W as <-. cbn [consume] in C. injection C as <-. exists []. split; [constructor | reflexivity].
  - assert (L' : (List.length r <= n)%nat) by lia. destruct (words_inv _ _ _ W) as [(-> & ->)|(w & ws' & P & W' & ->)].
    { cbn [consume] in C. pose proof (extra_snd (map WArg r) true []) as X. rewrite C in X. discriminate. }
    cbn [consume] in C. destruct w as [x| |o sh e q|].
    + pose proof (extra_snd ws' true []) as X. rewrite C in X. discriminate.
    + pose proof (extra_snd ws' true []) as X. rewrite C in X. discriminate.
    + pose proof (option_back _ _ _ _ _ P) as B. destruct (read_word o sh e q) as [|l u|l o']; [discriminate| |].
      * apply prepend_inv in C as (acts' & C & ->). destruct u.
        { cbn [orb] in C. pose proof (extra_snd ws' (after_flush true []) []) as X. rewrite C in X. discriminate. }
        destruct B as (xs & I & ->). destruct (IH _ _ _ L' W' C) as (xs' & O & ->). exists (xs ++ xs'). split; [apply (op_cons [s] xs); assumption|].
        cbn [flush app]. rewrite map_app. reflexivity.
      * destruct ws' as [|[v| | |] ws']; try discriminate. apply prepend_inv in C as (acts' & C & ->).
        destruct r as [|v' r]; [discriminate|]. destruct (words_inv _ _ _ W') as [(-> & E)|(w & ws2 & P2 & W2 & E)]; [discriminate|]. injection E as <- <-.
        apply operand_iff in P2 as [O ->]. destruct (B _ O) as (xs & I & E). cbn [List.length] in L'.
        destruct (IH r _ acts' ltac:(lia) W2 C) as (xs' & OO & ->). exists (xs ++ xs'). split; [apply (op_cons [s; v'] xs); assumption|].
        cbn [flush app]. rewrite map_app, <- E, <- app_assoc. reflexivity.
    + apply prepend_inv in C as (acts' & C & ->). pose proof (extra_snd ws' (after_flush true []) []) as X. rewrite C in X. discriminate.
Qed.
(** Within the inputs. *)
Lemma back_run : forall argv ws acts run, run <> [] -> words argv = Some ws -> consume ws false false run = (acts, true) ->
  (exists i b post, argv = i ++ b /\ Forall operand i /\ options b post /\ acts = TInputs (run ++ i) :: map t_of post)
  \/ (exists i1 i2, argv = i1 ++ utf8 "--" :: i2 /\ Forall operand i1 /\ acts = [TInputs (run ++ i1 ++ i2)]).
Proof.
  induction argv as [|s r IH]; intros ws acts run N W C.
  - injection W as <-. cbn [consume] in C. destruct (flush_some _ N) as [FL _]. rewrite FL in C. injection C as <-. left. exists [], [], [].
    rewrite (app_nil_r run). split; [reflexivity|]. split; [apply Forall_nil|]. split; [apply op_nil | reflexivity].
  - destruct (words_inv _ _ _ W) as [(-> & ->)|(w & ws' & P & W' & ->)].
    { cbn [consume] in C. rewrite dashes_run in C. assert (NE : run ++ r <> []) by (intros E; apply app_eq_nil in E as [E _]; congruence).
      destruct (flush_some _ NE) as [FL _]. rewrite FL in C. injection C as <-. right. exists [], r. split; [reflexivity|]. split; [apply Forall_nil | reflexivity]. }
    destruct w as [x| |o sh e q|].
    + apply operand_iff in P as [O ->]. cbn [consume] in C.
      assert (NE : run ++ [s] <> []) by (intros E; apply app_eq_nil in E as [_ E]; discriminate).
      destruct (IH _ _ _ NE W' C) as [(i & b & post & -> & F & OB & ->)|(i1 & i2 & -> & F & ->)].
      * left. exists (s :: i), b, post. split; [reflexivity|]. split; [constructor; assumption|]. split; [exact OB|]. rewrite <- app_assoc. reflexivity.
      * right. exists (s :: i1), i2. split; [reflexivity|]. split; [constructor; assumption|]. rewrite <- app_assoc. reflexivity.
    + destruct (not_dashes _ P).
    + left. exists [], (s :: r). destruct (flush_some _ N) as [FL AF].
      assert (CO : exists acts', consume (WOpt o sh e q :: ws') true false [] = (acts', true) /\ acts = TInputs run :: acts').
      { cbn [consume] in C |- *. rewrite FL, AF in C. destruct (read_word o sh e q) as [|l u|l o'].
        - discriminate.
        - apply prepend_inv in C as (a' & C & ->). cbn [flush after_flush app]. rewrite C. exists (l ++ a'). split; reflexivity.
        - destruct ws' as [|[v| | |] ws']; try discriminate. apply prepend_inv in C as (a' & C & ->). cbn [flush after_flush app]. rewrite C.
          eexists. split; [reflexivity|]. cbn [app]. reflexivity. }
      destruct CO as (acts' & C' & ->). destruct (back_options _ _ _ _ (le_n _) W C') as (post & OB & ->). exists post. rewrite (app_nil_r run).
      split; [reflexivity|]. split; [apply Forall_nil|]. split; [exact OB | reflexivity].
    + cbn [consume] in C. apply prepend_inv in C as (a' & C & ->). pose proof (extra_snd ws' (after_flush false run) []) as X. rewrite C in X. discriminate.
Qed.
(** Before the inputs. *)
Lemma back_line : forall n argv ws acts, (List.length argv <= n)%nat -> words argv = Some ws -> consume ws false false [] = (acts, true) ->
  exists pre ins post, line argv pre ins post /\ acts = map t_of pre ++ TInputs ins :: map t_of post.
Proof.
  induction n as [|n IH]; intros argv ws acts L W C; destruct argv as [|s r]; cbn [List.length] in L; try lia.
  - injection W as <-. discriminate.
  - injection W as <-. discriminate.
  - assert (L' : (List.length r <= n)%nat) by lia. destruct (words_inv _ _ _ W) as [(-> & ->)|(w & ws' & P & W' & ->)].
    { cbn [consume] in C. rewrite dashes_run in C. cbn [app] in C. destruct r as [|v r]; [discriminate|]. cbn [flush after_flush] in C. injection C as <-.
      exists [], (v :: r), []. split; [|reflexivity]. apply (line_dashes [] [] [] (v :: r)); [constructor | discriminate | constructor]. }
    destruct w as [x| |o sh e q|].
    + apply operand_iff in P as [O ->]. cbn [consume app] in C.
      destruct (back_run r ws' acts [s] ltac:(discriminate) W' C) as [(i & b & post & -> & F & OB & ->)|(i1 & i2 & -> & F & ->)].
      * exists [], (s :: i), post. split; [|reflexivity]. apply (line_plain [] [] (s :: i) b post); [constructor | discriminate | constructor; assumption | exact OB].
      * exists [], (s :: i1 ++ i2), []. split; [|reflexivity]. apply (line_dashes [] [] (s :: i1) i2); [constructor | discriminate | constructor; assumption].
    + destruct (not_dashes _ P).
    + cbn [consume] in C. pose proof (option_back _ _ _ _ _ P) as B.
      assert (G : forall ws0 xs r0 pre ins post, option_item ws0 xs -> line r0 pre ins post -> line (ws0 ++ r0) (xs ++ pre) ins post).
      { intros ws0 xs r0 pre ins post I [a pre' ins' b post' OA NN F OB | a pre' i1 i2 OA NN F].
        - rewrite (app_assoc ws0). apply line_plain; try assumption. apply op_cons; assumption.
        - rewrite (app_assoc ws0). apply line_dashes; try assumption. apply op_cons; assumption. }
      destruct (read_word o sh e q) as [|l u|l o']; [discriminate| |].
      * apply prepend_inv in C as (acts' & C & ->). cbn [after_flush] in C. destruct u.
        { cbn [orb] in C. pose proof (extra_snd ws' false []) as X. rewrite C in X. discriminate. }
        destruct B as (xs & I & ->). destruct (IH _ _ _ L' W' C) as (pre & ins & post & LN & ->). exists (xs ++ pre), ins, post.
        split; [exact (G [s] xs r _ _ _ I LN)|]. cbn [flush app]. rewrite map_app, <- app_assoc. reflexivity.
      * destruct ws' as [|[v| | |] ws']; try discriminate. apply prepend_inv in C as (acts' & C & ->).
        destruct r as [|v' r]; [discriminate|]. destruct (words_inv _ _ _ W') as [(-> & E)|(w & ws2 & P2 & W2 & E)]; [discriminate|]. injection E as <- <-.
        apply operand_iff in P2 as [O ->]. destruct (B _ O) as (xs & I & E). cbn [List.length] in L'.
        destruct (IH r _ acts' ltac:(lia) W2 C) as (pre & ins & post & LN & ->). exists (xs ++ pre), ins, post.
        split; [exact (G [s; v'] xs r _ _ _ I LN)|]. cbn [flush app]. rewrite map_app, <- E, <- !app_assoc. reflexivity.
    + cbn [consume] in C. apply prepend_inv in C as (acts' & C & ->). pose proof (extra_snd ws' (after_flush false []) []) as X. rewrite C in X. discriminate.
Qed.
Lemma scan_line argv acts : scan argv = (acts, true) -> exists pre ins post, line argv pre ins post /\ acts = map t_of pre ++ TInputs ins :: map t_of post.
Proof.
  unfold scan. destruct (words argv) as [ws|] eqn:W; [|discriminate]. intros C. exact (back_line _ _ _ _ (le_n _) W C).
Qed.
