(** Lemmas about reading the command line. *)
From Coq Require Import NArith ZArith List Bool String Lia.
From Verif Require Import PyStr PyStrFacts Lint Cli Disk Args SpecText SpecArgs.
Import ListNotations.
Local Open Scope string_scope.
Local Open Scope list_scope.
Local Open Scope N_scope.

(** ** Strings *)

Lemma seqb_iff a b : seqb a b = true <-> a = b.
Proof. apply seqb_eq. Qed.
Lemma startswith_iff p s : startswith p s = true <-> starts_with p s.
Proof.
  revert s. induction p as [|x p IH]; intros s.
  - split; [intros _; exists s; reflexivity | intros _; destruct s; reflexivity].
  - destruct s as [|y s]; cbn [startswith].
    + split; [discriminate | intros (r & E); discriminate].
    + rewrite andb_true_iff, N.eqb_eq, IH. split.
      * intros (-> & r & ->). exists r. reflexivity.
      * intros (r & E). injection E as <- ->. split; [reflexivity | exists r; reflexivity].
Qed.
Lemma partition_none s : partition_eq s = None <-> ~ In 61 s.
Proof.
  induction s as [|c s IH]; cbn [partition_eq].
  - split; [intros _ [] | reflexivity].
  - destruct (N.eqb_spec c 61) as [->|N].
    + split; [discriminate | intros H; destruct H; left; reflexivity].
    + destruct (partition_eq s) as [[a b]|].
      * split; [discriminate|]. intros H. exfalso. destruct IH as [_ IH]. assert (~ In 61 s) by (intros J; apply H; right; exact J).
        specialize (IH H0). discriminate.
      * split; [|reflexivity]. intros _ [E|J]; [congruence|]. destruct IH as [IH _]. exact (IH eq_refl J).
Qed.
Lemma partition_app w v : ~ In 61 w -> partition_eq (w ++ 61 :: v) = Some (w, v).
Proof.
  induction w as [|c w IH]; intros H; cbn [partition_eq app].
  - reflexivity.
  - destruct (N.eqb_spec c 61) as [->|N]; [destruct H; left; reflexivity|]. rewrite IH; [reflexivity|]. intros J. apply H. right. exact J.
Qed.
Lemma partition_some s a b : partition_eq s = Some (a, b) -> s = a ++ 61 :: b /\ ~ In 61 a.
Proof.
  revert a. induction s as [|c s IH]; intros a; cbn [partition_eq]; [discriminate|].
  destruct (N.eqb_spec c 61) as [->|N].
  - intros [= <- <-]. split; [reflexivity | intros []].
  - destruct (partition_eq s) as [[a' b']|]; [|discriminate]. intros [= <- <-]. destruct (IH a' eq_refl) as [-> H].
    split; [reflexivity|]. intros [E|J]; [congruence | exact (H J)].
Qed.

(** ** The options *)

Lemma find_option_iff s o : find_option s = Some o <-> In (s, o) option_strings.
Proof.
  unfold find_option. split.
  - destruct (find _ _) as [[k o']|] eqn:F; [|discriminate]. intros [= <-]. apply find_some in F as [I E]. cbn [fst snd] in *.
    apply seqb_iff in E. subst. exact I.
  - intros H. unfold option_strings in H. cbn [In] in H. decompose [or] H; clear H; try contradiction;
    match goal with E : _ = (s, o) |- _ => injection E as <- <-; vm_compute; reflexivity end.
Qed.
Lemma option_no_eq s o : find_option s = Some o -> ~ In 61 s.
Proof.
  intros H. apply find_option_iff in H.
  assert (C : forallb (fun p => negb (has_char 61 (fst p))) option_strings = true) by (vm_compute; reflexivity).
  rewrite forallb_forall in C. specialize (C _ H). cbn [fst] in C. intros I. apply negb_true_iff in C.
  unfold has_char in C. assert (X : existsb (N.eqb 61) s = true) by (apply existsb_exists; exists 61; split; [exact I | reflexivity]).
  congruence.
Qed.
Lemma find_eq_none w v : find_option (w ++ 61 :: v) = None.
Proof.
  destruct (find_option (w ++ 61 :: v)) eqn:E; [|reflexivity]. apply option_no_eq in E. destruct E. apply in_or_app. right. left. reflexivity.
Qed.
(** The options with a letter. *)
Inductive lettered : N -> opt -> Prop :=
| lt_h : lettered 104 OHelp | lt_s : lettered 115 OSkip | lt_o : lettered 111 OOutput | lt_v : lettered 118 (OVerbose true).
Lemma letter_iff c o : find_option [45; c] = Some o <-> lettered c o.
Proof.
  split.
  - intros H. apply find_option_iff in H. unfold option_strings in H. cbn [In] in H.
    decompose [or] H; clear H; try contradiction;
    match goal with E : _ = ([45; c], o) |- _ => vm_compute in E; try discriminate; injection E as <- <-; constructor end.
  - intros []; vm_compute; reflexivity.
Qed.
(** What an option takes and what a setting says. *)
Definition t_of (x : setting) : taken :=
  match x with
  | Help => THelp | Skip => TSkip | Validate b => TValidate b | Verbose b => TVerbose b | Output d => TOutput d | Ignore t => TLint t
  end.
Lemma t_of_inj x y : t_of x = t_of y -> x = y.
Proof. destruct x, y; cbn; congruence. Qed.
Lemma flag_opt name x : In (name, x) flags -> exists o, find_option (utf8 name) = Some o /\ takes_arg o = false /\ take o [] = t_of x.
Proof.
  intros H. unfold flags in H. cbn [In] in H. decompose [or] H; clear H; try contradiction;
  match goal with E : _ = (name, x) |- _ => injection E as <- <- end; eexists; (split; [vm_compute; reflexivity|]); split; reflexivity.
Qed.
Lemma valued_opt name f : In (name, f) valued ->
  exists o, find_option (utf8 name) = Some o /\ takes_arg o = true /\ forall v, take o v = t_of (f v).
Proof.
  intros H. unfold valued in H. cbn [In] in H. decompose [or] H; clear H; try contradiction;
  match goal with E : _ = (name, f) |- _ => injection E as <- <- end; eexists; (split; [vm_compute; reflexivity|]); split; reflexivity.
Qed.
Lemma opt_flag name o : In name long_names -> find_option (utf8 name) = Some o ->
  (takes_arg o = false /\ exists x, In (name, x) flags /\ take o [] = t_of x)
  \/ (takes_arg o = true /\ exists f, In (name, f) valued /\ forall v, take o v = t_of (f v)).
Proof.
  intros I H. unfold long_names in I. apply in_app_or in I as [I|I]; apply in_map_iff in I as ([n y] & E & I); cbn [fst] in E; subst n.
  - destruct (flag_opt _ _ I) as (o' & F & A & T). rewrite F in H. injection H as <-. left. split; [exact A|]. exists y. split; assumption.
  - destruct (valued_opt _ _ I) as (o' & F & A & T). rewrite F in H. injection H as <-. right. split; [exact A|]. exists y. split; assumption.
Qed.

(** ** Long options *)

Fixpoint prefixes (s : str) : list str := [] :: match s with [] => [] | c :: r => map (cons c) (prefixes r) end.
Lemma prefixes_in w r : In w (prefixes (w ++ r)).
Proof.
  induction w as [|c w IH]; [destruct r; left; reflexivity|]. right. apply in_map. exact IH.
Qed.
Definition opt_eqb (a b : opt) : bool :=
  match a, b with
  | OHelp, OHelp | OSkip, OSkip | OOutput, OOutput | OLint, OLint => true
  | OValidate x, OValidate y | OVerbose x, OVerbose y => Bool.eqb x y
  | _, _ => false
  end.
Lemma opt_eqb_eq a b : opt_eqb a b = true -> a = b.
Proof. destruct a, b; cbn; try discriminate; try reflexivity; intros H; apply Bool.eqb_prop in H; subst; reflexivity. Qed.
Definition one_long (w : str) : bool := match filter (fun n => startswith w (utf8 n)) long_names with [_] => true | _ => false end.
Definition reads_as (w : str) (name : string) : bool :=
  match w with
  | 45 :: 45 :: _ =>
      negb (has_char 61 w)
      && match find_option (utf8 name), filter (fun p => startswith w (fst p)) option_strings, parse_optional w with
         | Some o, [(_, o')], Some (WOpt o'' false false None) =>
             opt_eqb o o' && opt_eqb o o'' && match find_option w with Some o3 => opt_eqb o o3 | None => true end
         | _, _, _ => false
         end
  | _ => false
  end.
Lemma reads_all : forallb (fun name => forallb (fun w => implb (one_long w) (reads_as w name)) (prefixes (utf8 name))) long_names = true.
Proof. vm_compute. reflexivity. Qed.
Lemma stands_one w name : stands w name -> one_long w = true.
Proof.
  intros (I & S0 & U). unfold one_long.
  assert (D : NoDup long_names).
  { unfold long_names, flags, valued. cbn [map fst app]. repeat constructor; cbn [In]; intros H; decompose [or] H; try discriminate; contradiction. }
  assert (F : forall l, NoDup l -> In name l -> (forall other, In other l -> starts_with w (utf8 other) -> other = name) ->
    filter (fun n => startswith w (utf8 n)) l = [name]).
  { intros l. induction l as [|n l IH]; intros ND IN UN; [destruct IN|]. inversion ND as [|? ? NI ND']; subst. cbn [filter].
    destruct (startswith w (utf8 n)) eqn:E.
    - apply startswith_iff in E. assert (n = name) by (apply UN; [left; reflexivity | exact E]). subst n. f_equal.
      assert (G : forall l', (forall o, In o l' -> In o l) -> filter (fun n => startswith w (utf8 n)) l' = []).
      { intros l'. induction l' as [|m l' IH']; intros SUB; [reflexivity|]. cbn [filter]. destruct (startswith w (utf8 m)) eqn:E'.
        - apply startswith_iff in E'. assert (m = name) by (apply UN; [right; apply SUB; left; reflexivity | exact E']). subst m.
          destruct NI. apply SUB. left. reflexivity.
        - apply IH'. intros o H. apply SUB. right. exact H. }
      apply G. auto.
    - destruct IN as [->|IN]; [apply startswith_iff in S0; congruence|]. apply IH; auto. intros o H. apply UN. right. exact H. }
  rewrite (F _ D I U). reflexivity.
Qed.
Lemma one_stands w : one_long w = true -> exists name, stands w name.
Proof.
  unfold one_long. destruct (filter _ _) as [|name [|? ?]] eqn:F; try discriminate. intros _. exists name.
  assert (X : forall n, In n (filter (fun n => startswith w (utf8 n)) long_names) <-> In n long_names /\ starts_with w (utf8 n)).
  { intros n. rewrite filter_In, startswith_iff. reflexivity. }
  rewrite F in X. destruct (proj1 (X name)) as [A B]; [left; reflexivity|]. split; [exact A|]. split; [exact B|].
  intros o O P. destruct (proj2 (X o)) as [E|[]]; [split; assumption|]. congruence.
Qed.
Lemma stands_opt w name : stands w name ->
  exists o, find_option (utf8 name) = Some o /\ parse_optional w = Some (WOpt o false false None)
    /\ (forall v, parse_optional (w ++ 61 :: v) = Some (WOpt o false true (Some v)))
    /\ (exists t, w = 45 :: 45 :: t /\ t <> []).
Proof.
  intros H. pose proof (stands_one _ _ H) as O1. destruct H as (I & (r & E) & U).
  pose proof reads_all as R. rewrite forallb_forall in R. specialize (R _ I). rewrite forallb_forall in R.
  assert (P : In w (prefixes (utf8 name))) by (rewrite E; apply prefixes_in). specialize (R _ P). rewrite O1 in R. cbn [implb] in R.
  clear P E r U. unfold reads_as in R.
  destruct w as [|c1 w]; [discriminate|]. destruct (N.eq_dec c1 45) as [->|NE];
    [|exfalso; revert R; clear - NE; destruct c1 as [|p]; [discriminate|]; do 6 (destruct p; try discriminate); congruence].
  destruct w as [|c2 w]; [discriminate|]. destruct (N.eq_dec c2 45) as [->|NE];
    [|exfalso; revert R; clear - NE; destruct c2 as [|p]; [discriminate|]; do 6 (destruct p; try discriminate); congruence].
  apply andb_true_iff in R as [Q R]. apply negb_true_iff in Q.
  assert (NQ : ~ In 61 (45 :: 45 :: w)).
  { intros J. unfold has_char in Q. assert (X : existsb (N.eqb 61) (45 :: 45 :: w) = true) by (apply existsb_exists; exists 61; split; [exact J | reflexivity]). congruence. }
  destruct (find_option (utf8 name)) as [o|]; [|discriminate]. exists o.
  destruct (filter _ option_strings) as [|[k o'] [|? ?]] eqn:F; try discriminate.
  destruct (parse_optional (45 :: 45 :: w)) as [[| |o'' [] [] [?|]|]|] eqn:PO; try discriminate.
  apply andb_true_iff in R as [R R3]. apply andb_true_iff in R as [R1 R2]. apply opt_eqb_eq in R1, R2. subst o' o''.
  split; [reflexivity|]. split; [reflexivity|]. split.
  2:{ exists w. split; [reflexivity|]. intros ->. vm_compute in O1. discriminate. }
  intros v. cbn [app]. unfold parse_optional. change (negb (45 =? 45)) with false. cbv iota.
  change (45 :: 45 :: w ++ 61 :: v) with ((45 :: 45 :: w) ++ 61 :: v). rewrite find_eq_none, partition_app by exact NQ.
  destruct (find_option (45 :: 45 :: w)) as [o3|] eqn:F3.
  - apply opt_eqb_eq in R3. subst o3. reflexivity.
  - unfold option_tuples. cbn [app]. change (45 :: 45 :: w ++ 61 :: v) with ((45 :: 45 :: w) ++ 61 :: v). rewrite partition_app by exact NQ.
    cbv beta iota zeta. rewrite F. reflexivity.
Qed.

(** ** Options by letter *)

Definition cl (o : opt) (e : str) : reading :=
  match e with [] => alone o | d :: e'' => if d =? 61 then bundle o true e'' else bundle o false e end.
Definition short_read (o : opt) (r : str) : word :=
  match r with [] => WOpt o true false None | d :: b => if d =? 61 then WOpt o true true (Some b) else WOpt o true false (Some r) end.
Lemma no_longer c r : c <> 45 -> r <> [] -> find_option (45 :: c :: r) = None.
Proof.
  intros N R. destruct (find_option (45 :: c :: r)) as [o|] eqn:E; [|reflexivity]. exfalso. apply find_option_iff in E. unfold option_strings in E. cbn [In] in E.
  decompose [or] E; clear E; try contradiction;
  match goal with H : _ = _ |- _ => vm_compute in H; injection H as ? ?; congruence end.
Qed.
Lemma lettered_not_dash c o : lettered c o -> c <> 45.
Proof. intros []; discriminate. Qed.
Lemma tuples_short c r : c <> 45 -> option_tuples (45 :: c :: r)
  = match find_option [45; c] with Some o => [WOpt o true false (Some r)] | None => [] end.
Proof.
  intros N. unfold option_tuples.
  assert (X : forall (A : Type) (a b : A), match c with 45 => a | _ => b end = b).
  { intros A a b. destruct c as [|p]; [reflexivity|]. do 6 (destruct p; try reflexivity). congruence. }
  rewrite X. cbn [firstn skipn].
  destruct (find_option [45; c]) as [o|] eqn:F.
  - apply letter_iff in F. destruct F; vm_compute; reflexivity.
  - assert (Y : filter (fun p : str * opt => seqb (fst p) [45; c]) option_strings = []).
    { destruct (filter _ _) as [|[k o] l] eqn:E; [reflexivity|]. exfalso. assert (J : In (k, o) (filter (fun p : str * opt => seqb (fst p) [45; c]) option_strings)) by (rewrite E; left; reflexivity).
      apply filter_In in J as [J S0]. cbn [fst] in S0. apply seqb_iff in S0. subst k. apply find_option_iff in J. congruence. }
    rewrite Y. reflexivity.
Qed.
Lemma short_word c o r : lettered c o -> parse_optional (45 :: c :: r) = Some (short_read o r).
Proof.
  intros L. pose proof (lettered_not_dash _ _ L) as N. unfold parse_optional. change (negb (45 =? 45)) with false. cbv iota.
  destruct r as [|d r].
  - rewrite (proj2 (letter_iff c o) L). unfold is_short. rewrite (proj2 (N.eqb_neq c 45) N). reflexivity.
  - rewrite no_longer by (try exact N; discriminate). unfold short_read. destruct (N.eqb_spec d 61) as [->|D].
    + change (45 :: c :: 61 :: r) with ([45; c] ++ 61 :: r). rewrite partition_app
        by (intros [E|[E|[]]]; [discriminate | subst c; inversion L]).
      rewrite (proj2 (letter_iff c o) L). unfold is_short. rewrite (proj2 (N.eqb_neq c 45) N). reflexivity.
    + assert (P : match partition_eq (45 :: c :: d :: r) with
                  | Some (a, b) => match find_option a with Some o0 => Some (WOpt o0 (is_short a) true (Some b)) | None => None end
                  | None => None end = None).
      { destruct (partition_eq (45 :: c :: d :: r)) as [[a b]|] eqn:E; [|reflexivity]. apply partition_some in E as [E NI].
        destruct a as [|a1 [|a2 [|a3 a]]]; cbn [app] in E.
        - injection E as E _. discriminate.
        - injection E as _ E _. subst c. inversion L.
        - injection E as _ _ E _. congruence.
        - injection E as <- <- <- _. rewrite no_longer; [reflexivity | exact N | discriminate]. }
      rewrite P, tuples_short by exact N. rewrite (proj2 (letter_iff c o) L). reflexivity.
Qed.
Lemma short_read_read o r : exists sh e q, short_read o r = WOpt o sh e q /\ read_word o sh e q = cl o r.
Proof.
  unfold short_read, cl. destruct r as [|d r]; [do 3 eexists; split; reflexivity|].
  destruct (d =? 61); do 3 eexists; split; reflexivity.
Qed.
Lemma cl_cons o c e o' : takes_arg o = false -> lettered c o' -> cl o (c :: e) = before (take o []) (cl o' e).
Proof.
  intros A L. unfold cl at 1. destruct (N.eqb_spec c 61) as [->|D]; [inversion L|]. cbn [bundle]. rewrite A.
  pose proof (lettered_not_dash _ _ L) as N. rewrite (proj2 (N.eqb_neq c 45) N). cbn [orb]. rewrite (proj2 (letter_iff c o') L). reflexivity.
Qed.
Lemma letter_opt c x : letter c x -> exists o, lettered c o /\ takes_arg o = false /\ take o [] = t_of x.
Proof. intros []; eexists; (split; [constructor|]); split; reflexivity. Qed.
Lemma opt_letter c o : lettered c o -> takes_arg o = false -> exists x, letter c x /\ take o [] = t_of x.
Proof. intros [] T; try discriminate; eexists; (split; [constructor|]); reflexivity. Qed.
Definition befores (l : list taken) (r : reading) : reading := fold_right before r l.
Lemma befores_taken l l' u : befores l (RTaken l' u) = RTaken (l ++ l') u.
Proof. induction l as [|x l IH]; [reflexivity|]. cbn [befores fold_right]. fold (befores l (RTaken l' u)). rewrite IH. reflexivity. Qed.
Lemma befores_next l l' o : befores l (RNext l' o) = RNext (l ++ l') o.
Proof. induction l as [|x l IH]; [reflexivity|]. cbn [befores fold_right]. fold (befores l (RNext l' o)). rewrite IH. reflexivity. Qed.
(** Letters and then an option with a letter. *)
Lemma letters_then cs xs : Forall2 letter cs xs -> forall d o rest, lettered d o ->
  exists c0 o0 r0, 45 :: cs ++ d :: rest = 45 :: c0 :: r0 /\ lettered c0 o0 /\ cl o0 r0 = befores (map t_of xs) (cl o rest).
Proof.
  induction 1 as [|c x cs xs L F IH]; intros d o rest D.
  - exists d, o, rest. repeat split; assumption.
  - destruct (IH _ _ rest D) as (c0 & o0 & r0 & E & L0 & C). destruct (letter_opt _ _ L) as (o1 & L1 & A1 & T1).
    exists c, o1, (cs ++ d :: rest). split; [reflexivity|]. split; [exact L1|]. injection E as E. rewrite E, (cl_cons _ _ _ _ A1 L0), C, T1. reflexivity.
Qed.
(** What a word of letters can be. *)
Lemma cl_inv : forall e c o, lettered c o ->
  match cl o e with
  | RTaken l false =>
      (exists xs, Forall2 letter (c :: e) xs /\ l = map t_of xs)
      \/ (exists cs xs v, Forall2 letter cs xs /\ l = map t_of (xs ++ [Output v])
          /\ (c :: e = cs ++ 111 :: v /\ v <> [] /\ ~ starts_with [61] v \/ c :: e = cs ++ 111 :: 61 :: v))
  | RNext l o' => exists cs xs, Forall2 letter cs xs /\ c :: e = cs ++ [111] /\ l = map t_of xs /\ o' = OOutput
  | _ => True
  end.
Proof.
  induction e as [|d e IH]; intros c o L.
  - cbn [cl]. unfold alone. destruct (takes_arg o) eqn:A.
    + exists [], []. destruct L; try discriminate. split; [constructor|]. repeat split; reflexivity.
    + left. destruct (opt_letter _ _ L A) as (x & X & T). exists [x]. split; [repeat constructor; exact X|]. rewrite T. reflexivity.
  - unfold cl. destruct (N.eqb_spec d 61) as [->|D].
    + assert (B : bundle o true e = if takes_arg o then RTaken [take o e] false else RError) by (destruct e; reflexivity).
      rewrite B. destruct (takes_arg o) eqn:A; [|exact Logic.I]. destruct L; try discriminate.
      right. exists [], [], e. split; [constructor|]. split; [reflexivity|]. right. reflexivity.
    + cbn [bundle]. destruct (takes_arg o) eqn:A.
      * destruct L; try discriminate. right. exists [], [], (d :: e). split; [constructor|]. split; [reflexivity|]. left. split; [reflexivity|].
        split; [discriminate|]. intros (r & E). injection E as E _. congruence.
      * cbn [orb]. destruct (d =? 45); [exact Logic.I|]. destruct (find_option [45; d]) as [o'|] eqn:F; [|exact Logic.I].
        apply letter_iff in F. fold (cl o' e). specialize (IH d o' F). destruct (opt_letter _ _ L A) as (x & X & T). rewrite T.
        destruct (cl o' e) as [|l [|]|l q]; cbn [before]; try exact Logic.I.
        -- destruct IH as [(xs & FF & ->)|(cs & xs & v & FF & -> & W)].
           ++ left. exists (x :: xs). split; [constructor; assumption|]. reflexivity.
           ++ right. exists (c :: cs), (x :: xs), v. split; [constructor; assumption|]. split; [reflexivity|].
              destruct W as [(E & W)|E]; rewrite E; [left | right]; [split; [reflexivity | exact W] | reflexivity].
        -- destruct IH as (cs & xs & FF & E & -> & ->). exists (c :: cs), (x :: xs). split; [constructor; assumption|].
           rewrite E. repeat split; reflexivity.
Qed.

(** ** Inputs and values *)

Lemma digits_iff s : digits s = true <-> numeral s.
Proof.
  unfold digits, numeral, all. destruct s as [|c s]; [split; [discriminate | intros [H _]; congruence]|].
  rewrite forallb_forall, Forall_forall. split; [intros H; split; [discriminate | exact H] | intros [_ H]; exact H].
Qed.
Lemma newline_digit : isdigit 10 = false.
Proof. vm_compute. reflexivity. Qed.
Lemma drop_newline_last s : drop_newline (s ++ [10]) = s.
Proof. unfold drop_newline. rewrite rev_app_distr. cbn [rev app]. apply rev_involutive. Qed.
Lemma drop_newline_none s c : c <> 10 -> drop_newline (s ++ [c]) = s ++ [c].
Proof.
  intros N. unfold drop_newline. rewrite rev_app_distr. cbn [rev app]. destruct c as [|p]; [reflexivity|].
  do 4 (destruct p; try reflexivity). congruence.
Qed.
Lemma drop_newline_cases s : (exists s', s = s' ++ [10] /\ drop_newline s = s') \/ drop_newline s = s.
Proof.
  induction s as [|c s _] using rev_ind; [right; reflexivity|]. destruct (N.eq_dec c 10) as [->|N].
  - left. exists s. split; [reflexivity | apply drop_newline_last].
  - right. apply drop_newline_none. exact N.
Qed.
Lemma last_digit ds : numeral ds -> exists a c, ds = a ++ [c] /\ c <> 10.
Proof.
  intros [N A]. destruct (exists_last N) as (a & c & ->). exists a, c. split; [reflexivity|]. intros ->. unfold all in A.
  rewrite Forall_forall in A. specialize (A 10). rewrite newline_digit in A. discriminate A. apply in_or_app. right. left. reflexivity.
Qed.
Lemma drop_while_digits ds d f : all isdigit ds -> isdigit d = false -> drop_while isdigit (ds ++ d :: f) = d :: f.
Proof.
  intros A D. induction A as [|c ds C A IH]; cbn [app drop_while]; [rewrite D; reflexivity|]. rewrite C. exact IH.
Qed.
Lemma drop_while_split (p : N -> bool) s : exists a, s = a ++ drop_while p s /\ all p a.
Proof.
  induction s as [|c s (a & E & A)]; [exists []; split; [reflexivity | constructor]|]. cbn [drop_while]. destruct (p c) eqn:C.
  - exists (c :: a). split; [cbn [app]; rewrite <- E; reflexivity | constructor; assumption].
  - exists []. split; [reflexivity | constructor].
Qed.
Lemma negative_iff s : negative_number s = true <-> negative s.
Proof.
  unfold negative_number, negative. split.
  - assert (C : forall t nl, (nl = [] \/ nl = [10]) -> s = t ++ nl ->
      match t with
      | c :: r => (c =? 45) && (digits r || match drop_while isdigit r with d :: f => (d =? 46) && digits f | [] => false end)
      | [] => false end = true ->
      exists ds nl, (nl = [] \/ nl = [10]) /\ (numeral ds /\ s = 45 :: ds ++ nl \/ exists fs, all isdigit ds /\ numeral fs /\ s = 45 :: ds ++ 46 :: fs ++ nl)).
    { intros t nl NL E H. destruct t as [|c r]; [discriminate|]. apply andb_true_iff in H as [C H]. apply N.eqb_eq in C. subst c.
      apply orb_true_iff in H as [H|H].
      - apply digits_iff in H. exists r, nl. split; [exact NL|]. left. split; [exact H | exact E].
      - destruct (drop_while_split isdigit r) as (a & ER & A). destruct (drop_while isdigit r) as [|d f]; [discriminate|].
        apply andb_true_iff in H as [D H]. apply N.eqb_eq in D. subst d. apply digits_iff in H. exists a, nl. split; [exact NL|]. right. exists f.
        split; [exact A|]. split; [exact H|]. rewrite E, ER. cbn [app]. rewrite <- app_assoc. reflexivity. }
    destruct (drop_newline_cases s) as [(s' & E & D)|D]; rewrite D; intros H.
    + apply (C s' [10]); [right; reflexivity | exact E | exact H].
    + apply (C s []); [left; reflexivity | rewrite app_nil_r; reflexivity | exact H].
  - intros (ds & nl & NL & H).
    assert (D : forall b, numeral b -> forall a, s = a ++ b ++ nl -> drop_newline s = a ++ b).
    { intros b B a E. destruct NL as [->| ->].
      - rewrite app_nil_r in E. destruct (last_digit _ B) as (b' & c & -> & N). rewrite E. rewrite app_assoc. apply drop_newline_none. exact N.
      - rewrite E, app_assoc. apply drop_newline_last. }
    destruct H as [(N & E)|(fs & A & N & E)].
    + rewrite (D ds N [45] E). cbn [app]. apply digits_iff in N. rewrite N. reflexivity.
    + rewrite (D fs N (45 :: ds ++ [46])). 2:{ rewrite E. cbn [app]. rewrite <- app_assoc. reflexivity. }
      cbn [app]. rewrite <- app_assoc. cbn [app]. rewrite (drop_while_digits ds 46 fs A) by (vm_compute; reflexivity).
      apply digits_iff in N. rewrite N. cbn [andb N.eqb]. apply orb_true_r.
Qed.
Lemma space_iff s : has_char 32 s = true <-> In 32 s.
Proof.
  unfold has_char. rewrite existsb_exists. split.
  - intros (x & I & E). apply N.eqb_eq in E. subst x. exact I.
  - intros I. exists 32. split; [exact I | reflexivity].
Qed.
Lemma long_in name : In name long_names -> exists o, In (utf8 name, o) option_strings.
Proof.
  intros I. unfold long_names in I. apply in_app_or in I as [I|I]; apply in_map_iff in I as ([n y] & E & I); cbn [fst] in E; subst n.
  - destruct (flag_opt _ _ I) as (o & F & _). exists o. apply find_option_iff. exact F.
  - destruct (valued_opt _ _ I) as (o & F & _). exists o. apply find_option_iff. exact F.
Qed.
Lemma in_long k o : In (k, o) option_strings -> (exists name, In name long_names /\ k = utf8 name) \/ exists c, k = [45; c] /\ lettered c o.
Proof.
  intros H. unfold option_strings in H. cbn [In] in H.
  decompose [or] H; clear H; try contradiction;
  match goal with E : (utf8 ?n, _) = _ |- _ => apply pair_equal_spec in E as [<- <-] end;
  first [right; eexists; split; [vm_compute; reflexivity | constructor]
        | left; eexists; split; [|reflexivity]; unfold long_names, flags, valued; cbn [map fst app In]; tauto].
Qed.
Lemma long_no_eq name : In name long_names -> ~ In 61 (utf8 name).
Proof. intros I. destruct (long_in _ I) as (o & J). apply find_option_iff in J. exact (option_no_eq _ _ J). Qed.
Lemma prefix_no_eq w name : In name long_names -> starts_with w (utf8 name) -> ~ In 61 w.
Proof. intros I (r & E) J. apply (long_no_eq _ I). rewrite E. apply in_or_app. left. exact J. Qed.
Lemma tuples_long t : let s := 45 :: 45 :: t in
  let '(w, e, q) := match partition_eq s with Some (a, b) => (a, true, Some b) | None => (s, false, None) end in
  option_tuples s = map (fun p => WOpt (snd p) false e q) (filter (fun p => startswith w (fst p)) option_strings)
  /\ starts_with (utf8 "--") w /\ (s = w /\ e = false /\ q = None \/ exists x, s = w ++ 61 :: x /\ e = true /\ q = Some x) /\ ~ In 61 w.
Proof.
  intros s. unfold option_tuples. subst s. destruct (partition_eq (45 :: 45 :: t)) as [[a b]|] eqn:P.
  - split; [reflexivity|]. apply partition_some in P as [E N]. split; [|split; [right; exists b; split; [exact E | split; reflexivity] | exact N]].
    destruct a as [|a1 [|a2 a]]; cbn [app] in E; [discriminate | discriminate |]. injection E as <- <- _. exists a. reflexivity.
  - split; [reflexivity|]. apply partition_none in P. split; [exists t; reflexivity|]. split; [left; repeat split; reflexivity | exact P].
Qed.
Lemma tuples_opts s w : In w (option_tuples s) -> exists o sh e q, w = WOpt o sh e q.
Proof.
  assert (M : forall A (f : A -> word) l, (forall a, exists o sh e q, f a = WOpt o sh e q) -> In w (map f l) -> exists o sh e q, w = WOpt o sh e q).
  { intros A f l H I. apply in_map_iff in I as (a & <- & _). apply H. }
  assert (D : s = 45 :: 45 :: skipn 2 s \/ option_tuples s = map (fun p => WOpt (snd p) true false (Some (skipn 2 s))) (filter (fun p => seqb (fst p) (firstn 2 s)) option_strings)).
  { destruct s as [|c s]; [right; reflexivity|]. destruct (N.eq_dec c 45) as [->|N].
    - destruct s as [|d s]; [right; reflexivity|]. destruct (N.eq_dec d 45) as [->|N]; [left; reflexivity|].
      right. destruct d as [|p]; [reflexivity|]. do 6 (destruct p; try reflexivity). congruence.
    - right. destruct c as [|p]; [reflexivity|]. do 6 (destruct p; try reflexivity). congruence. }
  destruct D as [E|E].
  - pose proof (tuples_long (skipn 2 s)) as TL. cbv zeta in TL. rewrite <- E in TL.
    destruct (partition_eq s) as [[? ?]|]; destruct TL as (-> & _); apply M; intros a; do 4 eexists; reflexivity.
  - rewrite E. apply M. intros a. do 4 eexists. reflexivity.
Qed.
Lemma tuples_word c t : option_tuples (45 :: c :: t) = [] <-> ~ option_word (45 :: c :: t).
Proof.
  destruct (N.eq_dec c 45) as [->|N].
  - assert (H : exists w e q, option_tuples (45 :: 45 :: t) = map (fun p => WOpt (snd p) false e q) (filter (fun p => startswith w (fst p)) option_strings)
      /\ starts_with (utf8 "--") w
      /\ (45 :: 45 :: t = w /\ e = false /\ q = None \/ exists x, 45 :: 45 :: t = w ++ 61 :: x /\ e = true /\ q = Some x) /\ ~ In 61 w).
    { pose proof (tuples_long t) as H. cbv zeta in H. destruct (partition_eq (45 :: 45 :: t)) as [[? ?]|]; do 3 eexists; exact H. }
    destruct H as (w & e & q & -> & SW & FORM & NE). split.
    + intros H [(w' & name & S' & I & P & F)|(c & r & E & J)].
      * assert (w' = w).
        { pose proof (prefix_no_eq _ _ I P) as NE'. destruct FORM as [(F1 & _)|(x & F1 & _)], F as [F2|(y & F2)].
          - congruence.
          - exfalso. apply NE. rewrite <- F1, F2. apply in_or_app. right. left. reflexivity.
          - exfalso. apply NE'. rewrite <- F2, F1. apply in_or_app. right. left. reflexivity.
          - rewrite F1 in F2. pose proof (partition_app w x NE) as P1. pose proof (partition_app w' y NE') as P2. rewrite F2 in P1. congruence. }
        subst w'. destruct (long_in _ I) as (o & J).
        assert (X : In (utf8 name, o) (filter (fun p => startswith w (fst p)) option_strings)) by (apply filter_In; split; [exact J | apply startswith_iff; exact P]).
        apply map_eq_nil in H. rewrite H in X. destruct X.
      * injection E as <- <-. cbn [In] in J. decompose [or] J; clear J; try contradiction; discriminate.
    + intros H. destruct (filter _ _) as [|[k o] l] eqn:F; [reflexivity|]. exfalso. apply H. left.
      assert (X : In (k, o) (filter (fun p => startswith w (fst p)) option_strings)) by (rewrite F; left; reflexivity).
      apply filter_In in X as [X P]. cbn [fst] in P. apply startswith_iff in P. destruct (in_long _ _ X) as [(name & I & ->)|(c & -> & L)].
      * exists w, name. split; [exact SW|]. split; [exact I|]. split; [exact P|]. destruct FORM as [(F1 & _)|(x & F1 & _)]; [left; exact F1 | right; exists x; exact F1].
      * exfalso. destruct SW as (r & ->), P as (r' & P). apply (lettered_not_dash _ _ L). vm_compute in P. congruence.
  - rewrite tuples_short by exact N. split.
    + intros H [(w' & name & (r & ->) & I & P & F)|(d & r & E & J)].
      * destruct F as [F|(y & F)]; vm_compute in F; congruence.
      * injection E as <- <-. cbn [In] in J.
        assert (X : exists o, lettered c o) by (decompose [or] J; subst; try contradiction; eexists; constructor).
        destruct X as (o & X). apply letter_iff in X. rewrite X in H. discriminate.
    + intros H. destruct (find_option [45; c]) as [o|] eqn:F; [|reflexivity]. exfalso. apply H. right. exists c, t. split; [reflexivity|].
      apply letter_iff in F. destruct F; cbn [In]; tauto.
Qed.
Lemma find_tuples c t o : find_option (45 :: c :: t) = Some o -> option_tuples (45 :: c :: t) <> [].
Proof.
  intros F H. apply tuples_word in H. apply H. apply find_option_iff in F. destruct (in_long _ _ F) as [(name & I & E)|(d & E & L)].
  - left. exists (45 :: c :: t), name. rewrite E. split; [|split; [exact I | split; [exists []; rewrite app_nil_r; reflexivity | left; reflexivity]]].
    unfold long_names, flags, valued in I. cbn [map fst app In] in I. decompose [or] I; subst; try contradiction; (eexists; vm_compute; reflexivity).
  - right. exists c, t. split; [reflexivity|]. injection E as -> ->. destruct L; cbn [In]; tauto.
Qed.
Lemma part_tuples c t a b o : partition_eq (45 :: c :: t) = Some (a, b) -> find_option a = Some o -> option_tuples (45 :: c :: t) <> [].
Proof.
  intros P F H. apply tuples_word in H. apply H. clear H. apply partition_some in P as [E N]. apply find_option_iff in F.
  destruct (in_long _ _ F) as [(name & I & ->)|(d & -> & L)].
  - left. exists (utf8 name), name. split; [|split; [exact I | split; [exists []; rewrite app_nil_r; reflexivity | right; exists b; exact E]]].
    unfold long_names, flags, valued in I. cbn [map fst app In] in I. decompose [or] I; subst; try contradiction; (eexists; vm_compute; reflexivity).
  - right. exists c, t. split; [reflexivity|]. injection E as -> _. destruct L; cbn [In]; tauto.
Qed.
Lemma dashes_word : option_word (utf8 "--").
Proof.
  left. exists (utf8 "--"), "--help". split; [exists []; reflexivity|]. split; [left; reflexivity|]. split; [eexists; vm_compute; reflexivity | left; reflexivity].
Qed.
Lemma operand_iff s x : parse_optional s = Some (WArg x) <-> operand s /\ x = s.
Proof.
  assert (BASE : parse_optional s = Some (WArg s) /\ operand s \/ (forall y, parse_optional s <> Some (WArg y)) /\ ~ operand s).
  { destruct s as [|c t].
    - left. split; [reflexivity|]. left. intros (r & E). discriminate.
    - unfold parse_optional. destruct (N.eqb_spec c 45) as [->|N]; cbn [negb].
      + destruct t as [|d t].
        * left. split; [reflexivity | right; left; reflexivity].
        * assert (SW : starts_with [45] (45 :: d :: t)) by (eexists; reflexivity).
          destruct (option_tuples (45 :: d :: t)) as [|w l] eqn:T.
          -- destruct (find_option (45 :: d :: t)) as [o|] eqn:F; [destruct (find_tuples _ _ _ F T)|].
             assert (P : match partition_eq (45 :: d :: t) with
                  | Some (a, b) => match find_option a with Some o0 => Some (WOpt o0 (is_short a) true (Some b)) | None => None end
                  | None => None end = None).
             { destruct (partition_eq (45 :: d :: t)) as [[a b]|] eqn:P; [|reflexivity]. destruct (find_option a) eqn:FA; [|reflexivity]. destruct (part_tuples _ _ _ _ _ P FA T). }
             rewrite P. apply tuples_word in T. destruct (negative_number (45 :: d :: t) || has_char 32 (45 :: d :: t)) eqn:Q.
             ++ left. split; [reflexivity|]. right. right. split; [exact T|]. apply orb_true_iff in Q as [Q|Q]; [left; apply negative_iff; exact Q | right; apply space_iff; exact Q].
             ++ right. split; [intros y; discriminate|]. apply orb_false_iff in Q as [Q1 Q2].
                intros [H|[H|(_ & [H|H])]]; [exact (H SW) | discriminate | apply negative_iff in H; congruence | apply space_iff in H; congruence].
          -- right. split.
             ++ intros y. destruct (find_option (45 :: d :: t)); [discriminate|].
                destruct (match partition_eq (45 :: d :: t) with
                  | Some (a, b) => match find_option a with Some o0 => Some (WOpt o0 (is_short a) true (Some b)) | None => None end
                  | None => None end) as [w0|] eqn:P.
                ** destruct (partition_eq (45 :: d :: t)) as [[a b]|]; [|discriminate]. destruct (find_option a); [|discriminate]. injection P as <-. discriminate.
                ** destruct l; [|discriminate]. intros [= ->].
                   destruct (tuples_opts (45 :: d :: t) (WArg y)) as (o & sh & e & q & X); [rewrite T; left; reflexivity | discriminate X].
             ++ intros [H|[H|(H & _)]]; [exact (H SW) | discriminate |]. apply tuples_word in H. congruence.
      + left. split; [reflexivity|]. left. intros (r & E). injection E as E _. congruence. }
  destruct BASE as [(B & O)|(B & O)].
  - rewrite B. split; [intros [= <-]; split; [exact O | reflexivity] | intros [_ ->]; reflexivity].
  - split; [intros H; destruct (B _ H) | intros [H _]; destruct (O H)].
Qed.
Lemma operand_dashes v : operand v -> seqb v (utf8 "--") = false.
Proof.
  intros O. destruct (seqb v (utf8 "--")) eqn:E; [|reflexivity]. apply seqb_iff in E. subst v. exfalso.
  destruct O as [O|[O|(O & _)]]; [apply O; eexists; vm_compute; reflexivity | vm_compute in O; discriminate | exact (O dashes_word)].
Qed.

(** ** Options, read back *)

Lemma word_opt s o sh e q : parse_optional s = Some (WOpt o sh e q) ->
  (exists w name, stands w name /\ find_option (utf8 name) = Some o /\ sh = false
     /\ (s = w /\ e = false /\ q = None \/ exists b, s = w ++ 61 :: b /\ e = true /\ q = Some b))
  \/ (exists c r, s = 45 :: c :: r /\ lettered c o /\ read_word o sh e q = cl o r).
Proof.
  intros H. destruct s as [|c s]; [discriminate|]. pose proof H as H0. unfold parse_optional in H.
  destruct (N.eqb_spec c 45) as [->|N]; cbn [negb] in H; [|discriminate].
  assert (SHORT : forall d r o', s = d :: r -> find_option [45; d] = Some o' ->
    exists c0 r0, 45 :: s = 45 :: c0 :: r0 /\ lettered c0 o /\ read_word o sh e q = cl o r0).
  { intros d r o' -> F. apply letter_iff in F. rewrite (short_word _ _ r F) in H0. destruct (short_read_read o' r) as (sh' & e' & q' & E & R). rewrite E in H0.
    injection H0 as -> -> -> ->. exists d, r. split; [reflexivity|]. split; assumption. }
  assert (LONG : forall a, find_option a = Some o -> ~ (exists d, a = [45; d]) -> exists name, stands a name /\ find_option (utf8 name) = Some o).
  { intros a F ND. pose proof F as F0. apply find_option_iff in F. destruct (in_long _ _ F) as [(name & I & ->)|(d & E & _)]; [|destruct ND; exists d; exact E].
    exists name. split; [|exact F0]. assert (C : forallb (fun n => one_long (utf8 n)) long_names = true) by (vm_compute; reflexivity).
    rewrite forallb_forall in C. specialize (C _ I). destruct (one_stands _ C) as (n' & A & B & U).
    assert (name = n') by (apply U; [exact I | exists []; rewrite app_nil_r; reflexivity]). subst n'. split; [exact A | split; [exact B | exact U]]. }
  destruct (find_option (45 :: s)) as [o1|] eqn:F.
  - injection H as -> <- <- <-. destruct s as [|d [|d2 s]].
    + apply find_option_iff in F. destruct (in_long _ _ F) as [(name & I & E)|(d & E & _)]; [|discriminate].
      unfold long_names, flags, valued in I. cbn [map fst app In] in I. decompose [or] I; subst; try contradiction; vm_compute in E; discriminate.
    + right. exact (SHORT d [] o eq_refl F).
    + left. destruct (LONG _ F) as (name & A & B); [intros (x & E); discriminate|]. exists (45 :: d :: d2 :: s), name. split; [exact A|]. split; [exact B|].
      split; [|left; repeat split; reflexivity]. destruct (stands_opt _ _ A) as (o2 & _ & _ & _ & t & E & _). injection E as -> _. reflexivity.
  - destruct s as [|d s]; [discriminate|].
    destruct (partition_eq (45 :: d :: s)) as [[a b]|] eqn:P.
    + destruct (find_option a) as [o1|] eqn:FA.
      * injection H as -> <- <- <-. apply partition_some in P as [E NE]. destruct a as [|a1 [|a2 [|a3 a]]].
        -- vm_compute in FA. discriminate.
        -- cbn [app] in E. injection E as <- -> ->. apply find_option_iff in FA. destruct (in_long _ _ FA) as [(name & I & E)|(x & E & _)]; [|discriminate].
           unfold long_names, flags, valued in I. cbn [map fst app In] in I. decompose [or] I; subst; try contradiction; vm_compute in E; discriminate.
        -- cbn [app] in E. injection E as <- <- _. right. apply (SHORT d s o eq_refl). exact FA.
        -- left. destruct (LONG _ FA) as (name & A & B); [intros (x & EE); discriminate|]. exists (a1 :: a2 :: a3 :: a), name. split; [exact A|]. split; [exact B|].
           split; [|right; exists b; repeat split; exact E]. destruct (stands_opt _ _ A) as (o2 & _ & _ & _ & t & EE & _). injection EE as -> -> _. reflexivity.
      * destruct (N.eq_dec d 45) as [->|ND].
        -- pose proof (tuples_long s) as TL. cbv zeta in TL. rewrite P in TL. destruct TL as (TL & SW & FORM & NE). rewrite TL in H.
           destruct (filter _ option_strings) as [|[k o1] [|? ?]] eqn:FI; cbn [map] in H; [destruct (_ || _); discriminate | | discriminate].
           injection H as -> <- <- <-. left.
           assert (K : In (k, o) option_strings /\ starts_with a k).
           { assert (X : In (k, o) (filter (fun p => startswith a (fst p)) option_strings)) by (rewrite FI; left; reflexivity). apply filter_In in X as [X Y]. apply startswith_iff in Y. split; assumption. }
           destruct K as [K1 K2]. destruct (in_long _ _ K1) as [(name & I & ->)|(c & -> & L)].
           2:{ exfalso. destruct SW as (r & ->), K2 as (r' & K2). apply (lettered_not_dash _ _ L). vm_compute in K2. congruence. }
           exists a, name. split; [|split; [apply find_option_iff; exact K1 | split; [reflexivity|]]].
           ++ split; [exact I|]. split; [exact K2|]. intros other IO PO. destruct (long_in _ IO) as (o2 & J).
              assert (X : In (utf8 other, o2) (filter (fun p => startswith a (fst p)) option_strings)) by (apply filter_In; split; [exact J | apply startswith_iff; exact PO]).
              rewrite FI in X. destruct X as [X|[]]. apply (f_equal fst) in X. cbn [fst] in X.
              clear - IO I X. unfold long_names, flags, valued in I, IO. cbn [map fst app In] in I, IO.
              decompose [or] I; subst; try contradiction; decompose [or] IO; subst; try contradiction; try reflexivity; vm_compute in X; discriminate.
           ++ destruct FORM as [(_ & E & _)|(x & E & _ & E2)]; [discriminate|]. injection E2 as <-. right. exists b. repeat split. exact E.
        -- rewrite tuples_short in H by exact ND. destruct (find_option [45; d]) as [o1|] eqn:F1; [|destruct (_ || _); discriminate].
           right. exact (SHORT d s o1 eq_refl F1).
    + destruct (N.eq_dec d 45) as [->|ND].
      * pose proof (tuples_long s) as TL. cbv zeta in TL. rewrite P in TL. destruct TL as (TL & SW & FORM & NE). rewrite TL in H.
        destruct (filter _ option_strings) as [|[k o1] [|? ?]] eqn:FI; cbn [map] in H; [destruct (_ || _); discriminate | | discriminate].
        injection H as -> <- <- <-. left.
        assert (K : In (k, o) option_strings /\ starts_with (45 :: 45 :: s) k).
        { assert (X : In (k, o) (filter (fun p => startswith (45 :: 45 :: s) (fst p)) option_strings)) by (rewrite FI; left; reflexivity). apply filter_In in X as [X Y]. apply startswith_iff in Y. split; assumption. }
        destruct K as [K1 K2]. destruct (in_long _ _ K1) as [(name & I & ->)|(c & -> & L)].
        2:{ exfalso. destruct K2 as (r' & K2). apply (lettered_not_dash _ _ L). cbn [app] in K2. congruence. }
        exists (45 :: 45 :: s), name. split; [|split; [apply find_option_iff; exact K1 | split; [reflexivity | left; repeat split; reflexivity]]].
        split; [exact I|]. split; [exact K2|]. intros other IO PO. destruct (long_in _ IO) as (o2 & J).
        assert (X : In (utf8 other, o2) (filter (fun p => startswith (45 :: 45 :: s) (fst p)) option_strings)) by (apply filter_In; split; [exact J | apply startswith_iff; exact PO]).
        rewrite FI in X. destruct X as [X|[]]. apply (f_equal fst) in X. cbn [fst] in X.
        clear - IO I X. unfold long_names, flags, valued in I, IO. cbn [map fst app In] in I, IO.
        decompose [or] I; subst; try contradiction; decompose [or] IO; subst; try contradiction; try reflexivity; vm_compute in X; discriminate.
      * rewrite tuples_short in H by exact ND. destruct (find_option [45; d]) as [o1|] eqn:F1; [|destruct (_ || _); discriminate].
        right. exact (SHORT d s o1 eq_refl F1).
Qed.
