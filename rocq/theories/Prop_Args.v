(** C90: what a command line means, and which ones are refused. *)
From Coq Require Import NArith ZArith List Bool String Lia.
From Verif Require Import PyStr PyStrFacts Lint Cli Disk Args SpecText SpecCli SpecDisk SpecArgs ArgsProofs ArgsLine Prop_Cli.
Import ListNotations.
Local Open Scope string_scope.
Local Open Scope list_scope.
Local Open Scope N_scope.

(** ** The last of the settings *)

Lemma last_here {A} (kind : setting -> A -> Prop) d s y l x : kind s y -> last_says kind y l x -> last_says kind d (s :: l) x.
Proof.
  intros K [(l1 & s' & l2 & -> & K' & N)|(N & ->)]; left.
  - exists (s :: l1), s', l2. repeat split; assumption.
  - exists [], s, l. repeat split; assumption.
Qed.
Lemma last_there {A} (kind : setting -> A -> Prop) d s l x : (forall y, ~ kind s y) -> last_says kind d l x -> last_says kind d (s :: l) x.
Proof.
  intros K [(l1 & s' & l2 & -> & K' & N)|(N & ->)].
  - left. exists (s :: l1), s', l2. repeat split; assumption.
  - right. split; [|reflexivity]. intros s' y [<-|I]; [apply K | apply N; exact I].
Qed.
Lemma last_nil {A} (kind : setting -> A -> Prop) d : last_says kind d [] d.
Proof. right. split; [intros s y []|reflexivity]. Qed.
Lemma last_fun {A} (kind : setting -> A -> Prop) d l x y : (forall s a b, kind s a -> kind s b -> a = b) ->
  last_says kind d l x -> last_says kind d l y -> x = y.
Proof.
  intros F [(l1 & s & l2 & E & K & N)|(N & ->)] [(l1' & s' & l2' & E' & K' & N')|(N' & ->)].
  - subst l. revert l1' E'. induction l1 as [|z l1 IH]; intros [|z' l1'] E'; cbn [app] in E'; injection E' as E1 E2.
    + subst. exact (F _ _ _ K K').
    + subst. exfalso. apply (N s' y); [apply in_or_app; right; left; reflexivity | exact K'].
    + subst. exfalso. apply (N' s x); [apply in_or_app; right; left; reflexivity | exact K].
    + exact (IH _ E2).
  - exfalso. apply (N' s x); [rewrite E; apply in_or_app; right; left; reflexivity | exact K].
  - exfalso. apply (N s' y); [rewrite E'; apply in_or_app; right; left; reflexivity | exact K'].
  - reflexivity.
Qed.

Lemma NoDup_snoc {A} (l : list A) x : NoDup l -> ~ In x l -> NoDup (l ++ [x]).
Proof.
  induction 1 as [|y l N D IH]; intros H; cbn [app]; [constructor; [intros []|constructor]|]. constructor.
  - rewrite in_app_iff. intros [I|[->|[]]]; [exact (N I) | apply H; left; reflexivity].
  - apply IH. intros I. apply H. right. exact I.
Qed.
Lemma ambiguous_none v : ambiguous v -> parse_optional v = None /\ seqb v (utf8 "--") = false.
Proof.
  intros (w & n1 & n2 & I1 & I2 & NE & SW & P1 & P2 & FORM).
  assert (NU : forall name, ~ stands w name).
  { intros name (_ & _ & U). apply NE. rewrite (U _ I1 P1), (U _ I2 P2). reflexivity. }
  assert (AR : forall y, parse_optional v <> Some (WArg y)).
  { intros y H. apply operand_iff in H as [O _]. assert (OW : option_word v).
    { left. exists w, n1. split; [exact SW|]. split; [exact I1|]. split; [exact P1|]. destruct FORM as [[E _]|E]; [left | right]; exact E. }
    assert (D : starts_with [45] v /\ v <> [45]).
    { destruct SW as (r & ->). destruct FORM as [[-> _]|(x & ->)]; (split; [eexists; reflexivity | discriminate]). }
    destruct D as [D1 D2], O as [O|[O|(O & _)]]; [exact (O D1) | exact (D2 O) | exact (O OW)]. }
  assert (OP : forall o sh e q, parse_optional v <> Some (WOpt o sh e q)).
  { intros o sh e q H. pose proof (prefix_no_eq _ _ I1 P1) as Q. destruct (word_opt _ _ _ _ _ H) as [(w' & name & S0 & _ & _ & FF)|(c & r & E & L & _)].
    - assert (w' = w); [|subst; exact (NU _ S0)]. destruct S0 as (I' & P' & _). pose proof (prefix_no_eq _ _ I' P') as Q'.
      destruct FORM as [[-> _]|(x & ->)], FF as [(FF & _)|(y & FF & _)].
      + congruence.
      + exfalso. apply Q. rewrite FF. apply in_or_app. right. left. reflexivity.
      + exfalso. apply Q'. rewrite <- FF. apply in_or_app. right. left. reflexivity.
      + pose proof (partition_app w x Q) as A1. rewrite FF, (partition_app w' y Q') in A1. congruence.
    - destruct SW as (r' & ->). apply (lettered_not_dash _ _ L). destruct FORM as [[-> _]|(x & ->)]; vm_compute in E; congruence. }
  assert (UK : parse_optional v <> Some WUnknown).
  { assert (OW : option_word v).
    { left. exists w, n1. split; [exact SW|]. split; [exact I1|]. split; [exact P1|]. destruct FORM as [[E _]|E]; [left | right]; exact E. }
    assert (D : exists d t, v = 45 :: d :: t).
    { destruct SW as (r & ->). destruct FORM as [[-> _]|(x & ->)]; do 2 eexists; reflexivity. }
    destruct D as (d & t & ->). intros H. assert (T : option_tuples (45 :: d :: t) <> []) by (intros T; apply tuples_word in T; exact (T OW)).
    clear - H T OP AR. unfold parse_optional in H. cbn [N.eqb Pos.eqb negb] in H.
    destruct (find_option (45 :: d :: t)); [discriminate|].
    destruct (match partition_eq (45 :: d :: t) with
              | Some (a, b) => match find_option a with Some o => Some (WOpt o (is_short a) true (Some b)) | None => None end
              | None => None end) as [w0|] eqn:E.
    - destruct (partition_eq (45 :: d :: t)) as [[? ?]|]; [|discriminate]. destruct (find_option _); [|discriminate]. injection E as <-. discriminate.
    - destruct (option_tuples (45 :: d :: t)) as [|w1 [|? ?]] eqn:TT; [congruence | | discriminate]. injection H as ->.
      destruct (tuples_opts (45 :: d :: t) WUnknown) as (? & ? & ? & ? & X); [rewrite TT; left; reflexivity | discriminate X]. }
  split.
  - destruct (parse_optional v) as [[y| |o sh e q|]|] eqn:E; [destruct (AR y eq_refl) | destruct (not_dashes _ E) | destruct (OP _ _ _ _ eq_refl) | destruct (UK eq_refl) | reflexivity].
  - destruct (seqb v (utf8 "--")) eqn:E; [|reflexivity]. apply seqb_iff in E. exfalso. destruct FORM as [[-> N]|(x & ->)]; [exact (N E)|].
    pose proof (eq_dashes w x) as X. rewrite E, seqb_refl in X. discriminate.
Qed.
Lemma none_ambiguous v : parse_optional v = None -> ambiguous v \/ v = utf8 "--".
Proof.
  intros H. destruct v as [|c t]; [discriminate|]. unfold parse_optional in H. destruct (N.eqb_spec c 45) as [->|N]; cbn [negb] in H; [|discriminate].
  destruct (find_option (45 :: t)); [discriminate|]. destruct t as [|d t]; [discriminate|].
  destruct (match partition_eq (45 :: d :: t) with
            | Some (a, b) => match find_option a with Some o => Some (WOpt o (is_short a) true (Some b)) | None => None end
            | None => None end); [discriminate|].
  destruct (option_tuples (45 :: d :: t)) as [|w0 [|w1 ws]] eqn:T; [destruct (_ || _); discriminate | discriminate|]. clear H.
  destruct (N.eq_dec d 45) as [->|ND].
  2:{ rewrite tuples_short in T by exact ND. destruct (find_option [45; d]); discriminate. }
  assert (H : exists w e q, option_tuples (45 :: 45 :: t) = map (fun p => WOpt (snd p) false e q) (filter (fun p => startswith w (fst p)) option_strings)
      /\ starts_with (utf8 "--") w
      /\ (45 :: 45 :: t = w /\ e = false /\ q = None \/ exists x, 45 :: 45 :: t = w ++ 61 :: x /\ e = true /\ q = Some x) /\ ~ In 61 w).
  { pose proof (tuples_long t) as H. cbv zeta in H. destruct (partition_eq (45 :: 45 :: t)) as [[? ?]|]; do 3 eexists; exact H. }
  destruct H as (w & e & q & E & SW & FORM & _). rewrite E in T.
  destruct (filter _ option_strings) as [|p1 [|p2 ps]] eqn:F; [discriminate | discriminate|]. clear T E.
  assert (K : forall p, In p (filter (fun p => startswith w (fst p)) option_strings) -> exists name, In name long_names /\ fst p = utf8 name /\ starts_with w (utf8 name)).
  { intros [k o] I. apply filter_In in I as [I P]. cbn [fst] in *. apply startswith_iff in P. destruct (in_long _ _ I) as [(name & J & ->)|(c & -> & L)].
    - exists name. repeat split; assumption.
    - exfalso. destruct SW as (r & ->), P as (r' & P). apply (lettered_not_dash _ _ L). vm_compute in P. congruence. }
  assert (ND : NoDup (map fst (filter (fun p => startswith w (fst p)) option_strings))).
  { assert (G : NoDup (map fst option_strings)).
    { unfold option_strings. cbn [map fst]. repeat constructor; cbn [In]; intros H; decompose [or] H; try contradiction; match goal with X : utf8 _ = _ |- _ => vm_compute in X; discriminate X end. }
    revert G. generalize option_strings. intros l. induction l as [|p l IH]; cbn [map filter]; [intros G; exact G|]. intros G. inversion G as [|? ? NI G']; subst.
    destruct (startswith w (fst p)); [|apply IH; exact G']. cbn [map]. constructor; [|apply IH; exact G'].
    intros I. apply NI. apply in_map_iff in I as (x & X & I). apply filter_In in I as [I _]. rewrite <- X. apply in_map. exact I. }
  rewrite F in K, ND. destruct (K p1) as (n1 & I1 & E1 & P1); [left; reflexivity|]. destruct (K p2) as (n2 & I2 & E2 & P2); [right; left; reflexivity|].
  cbn [map] in ND. inversion ND as [|? ? NI _]; subst. cbn [In] in NI.
  assert (NE : n1 <> n2) by (intros ->; apply NI; left; congruence).
  destruct FORM as [(FO & _)|(x & FO & _)].
  - destruct (seqb w (utf8 "--")) eqn:D; [right; apply seqb_iff in D; congruence|]. left. exists w, n1, n2. repeat (split; [assumption|]). left. split; [exact FO|].
    intros ->. rewrite seqb_refl in D. discriminate.
  - left. exists w, n1, n2. repeat (split; [assumption|]). right. exists x. exact FO.
Qed.
Lemma codes_iff t : arg_lintcode t = None <-> ~ exists cs, ignores (Some t) cs.
Proof.
  destruct (arg_lintcode t) as [cs|] eqn:E.
  - split; [discriminate|]. intros N. destruct N. exists cs. apply C61_codes. exact E.
  - split; [|reflexivity]. intros _ (cs & H). apply C61_codes in H. congruence.
Qed.
Lemma settings_in pre ins post s : In (Setting s) (items pre ins post) <-> In s (pre ++ post).
Proof.
  unfold items. rewrite !in_app_iff. cbn [In]. rewrite !in_map_iff. split.
  - intros [(x & [= ->] & I)|[H|(x & [= ->] & I)]]; [left; exact I | discriminate | right; exact I].
  - intros [I|I]; [left | right; right]; exists s; split; [reflexivity | exact I | reflexivity | exact I].
Qed.

Section Args.
Variable at_path : str -> thing.
Variable can_make : str -> bool.
Variable file_at : str -> path.
Variable dir_at : str -> str.
Variable cwd : str.
Definition codes_ok (t : str) : Prop := exists cs, ignores (Some t) cs.
Definition starting (argv : list str) : started := start at_path can_make file_at dir_at cwd argv.
Definition stops (x : item) (st : N) : Prop := ends at_path can_make codes_ok x st.
Definition meaning (pre : list setting) (ins : list str) (post : list setting) (k : command) (verbose : bool) : Prop :=
  means file_at dir_at cwd (pre ++ post) ins k verbose.

(** ** Taking the actions *)

Definition item_t (x : item) : taken := match x with Setting s => t_of s | Inputs l => TInputs l end.
Definition set (n : namespace) (x : item) : namespace :=
  match x with
  | Setting Help => n
  | Setting Skip => mkNs true (n_output n) (n_validate n) (n_verbose n) (n_ignore n) (n_inputs n)
  | Setting (Validate b) => mkNs (n_skip n) (n_output n) b (n_verbose n) (n_ignore n) (n_inputs n)
  | Setting (Verbose b) => mkNs (n_skip n) (n_output n) (n_validate n) b (n_ignore n) (n_inputs n)
  | Setting (Output d) => mkNs (n_skip n) (Some d) (n_validate n) (n_verbose n) (n_ignore n) (n_inputs n)
  | Setting (Ignore t) => mkNs (n_skip n) (n_output n) (n_validate n) (n_verbose n) (Some t) (n_inputs n)
  | Inputs l => mkNs (n_skip n) (n_output n) (n_validate n) (n_verbose n) (n_ignore n) (map file_at l)
  end.
Lemma inputs_iff l : match sequence (map (arg_input at_path file_at) l) with
  | Some ps => ps = map file_at l /\ Forall (fun s => at_path s = AFile) l
  | None => exists s, In s l /\ at_path s <> AFile end.
Proof.
  induction l as [|s l IH]; cbn [map sequence]; [split; [reflexivity | constructor]|]. unfold arg_input at 1. destruct (at_path s) eqn:E.
  2:{ destruct (sequence _) as [ps|].
      - destruct IH as [-> F]. split; [reflexivity | constructor; assumption].
      - destruct IH as (x & I & N). exists x. split; [right; exact I | exact N]. }
  all: exists s; split; [left; reflexivity | congruence].
Qed.
Definition good_made (l : list item) (made : list str) : Prop := makes at_path l made /\ forall d, In d made -> can_make d = true.
Lemma made_more l made x : (forall d, x <> Setting (Output d)) -> good_made l made -> good_made (l ++ [x]) made.
Proof.
  intros N ((ND & M) & C). split; [|exact C]. split; [exact ND|]. intros d. rewrite M, in_app_iff. cbn [In]. split.
  - intros [I P]. split; [left; exact I | exact P].
  - intros [[I|[E|[]]] P]; [split; assumption | destruct (N _ E)].
Qed.
Lemma output_iff l made d : good_made l made ->
  match arg_output at_path can_make made d with
  | Some made' => usable at_path can_make d /\ good_made (l ++ [Setting (Output d)]) made'
  | None => ~ usable at_path can_make d end.
Proof.
  intros ((ND & M) & C). unfold arg_output, usable.
  assert (SM : smem d made = true <-> In d made).
  { unfold smem. rewrite existsb_exists. split; [intros (x & I & E); apply seqb_iff in E; subst; exact I | intros I; exists d; split; [exact I | apply seqb_iff; reflexivity]]. }
  destruct (smem d made) eqn:S0.
  - pose proof (proj1 SM eq_refl) as S1. clear SM S0. rename S1 into S0. destruct (proj1 (M d) S0) as [I P]. split; [right; split; [exact P | apply C; exact S0]|]. split; [|exact C]. split; [exact ND|].
    intros x. rewrite M, in_app_iff. cbn [In]. split; [intros [A B]; split; [left; exact A | exact B]|].
    intros [[A|[[= <-]|[]]] B]; split; assumption.
  - assert (NI : ~ In d made) by (intros I; apply SM in I; discriminate). destruct (at_path d) eqn:P.
    + destruct (can_make d) eqn:K; [|intros [A|[_ A]]; congruence]. split; [right; split; reflexivity|]. split.
      * split.
        -- apply NoDup_snoc; assumption.
        -- intros x. rewrite !in_app_iff, M. cbn [In]. split.
           ++ intros [[A B]|[<-|[]]]; [split; [left; exact A | exact B] | split; [right; left; reflexivity | exact P]].
           ++ intros [[A|[[= <-]|[]]] B]; [left; split; assumption | right; left; reflexivity].
      * intros x I. apply in_app_or in I as [I|[<-|[]]]; [apply C; exact I | exact K].
    + intros [A|[A _]]; congruence.
    + split; [left; reflexivity|]. split; [|exact C]. split; [exact ND|]. intros x. rewrite M, in_app_iff. cbn [In]. split.
      * intros [A B]. split; [left; exact A | exact B].
      * intros [[A|[[= <-]|[]]] B]; [split; assumption | congruence].
    + intros [A|[A _]]; congruence.
Qed.
Lemma take_spec : forall todo done n made ok, good_made done made ->
  (exists a x b st made', todo = a ++ x :: b /\ (forall y st', In y a -> ~ stops y st') /\ stops x st
     /\ take_all at_path can_make file_at dir_at cwd (map item_t todo) ok n made = Exits st made' /\ makes at_path (done ++ a) made')
  \/ ((forall y st', In y todo -> ~ stops y st')
      /\ exists made', makes at_path (done ++ todo) made'
         /\ take_all at_path can_make file_at dir_at cwd (map item_t todo) ok n made
            = take_all at_path can_make file_at dir_at cwd [] ok (fold_left set todo n) made').
Proof.
  induction todo as [|x todo IH]; intros done n made ok G.
  - right. split; [intros y st' []|]. exists made. rewrite app_nil_r. split; [exact (proj1 G) | reflexivity].
  - assert (STOP : forall st, stops x st -> take_all at_path can_make file_at dir_at cwd (map item_t (x :: todo)) ok n made = Exits st made ->
      exists a x0 b st made', x :: todo = a ++ x0 :: b /\ (forall y st', In y a -> ~ stops y st') /\ stops x0 st
        /\ take_all at_path can_make file_at dir_at cwd (map item_t (x :: todo)) ok n made = Exits st made' /\ makes at_path (done ++ a) made').
    { intros st E T. exists [], x, todo, st, made. split; [reflexivity|]. split; [intros y st' []|]. split; [exact E|]. split; [exact T|]. rewrite app_nil_r. exact (proj1 G). }
    assert (GO : forall made', (forall st', ~ stops x st') -> good_made (done ++ [x]) made' ->
      take_all at_path can_make file_at dir_at cwd (map item_t (x :: todo)) ok n made
      = take_all at_path can_make file_at dir_at cwd (map item_t todo) ok (set n x) made' ->
      (exists a x0 b st made', x :: todo = a ++ x0 :: b /\ (forall y st', In y a -> ~ stops y st') /\ stops x0 st
         /\ take_all at_path can_make file_at dir_at cwd (map item_t (x :: todo)) ok n made = Exits st made' /\ makes at_path (done ++ a) made')
      \/ ((forall y st', In y (x :: todo) -> ~ stops y st')
          /\ exists made', makes at_path (done ++ x :: todo) made'
             /\ take_all at_path can_make file_at dir_at cwd (map item_t (x :: todo)) ok n made
                = take_all at_path can_make file_at dir_at cwd [] ok (fold_left set (x :: todo) n) made')).
    { intros made' NS G' T. rewrite T. destruct (IH (done ++ [x]) (set n x) made' ok G') as [(a & x0 & b & st & m & -> & A & B & C & D)|(A & m & B & C)].
      - left. exists (x :: a), x0, b, st, m. split; [reflexivity|]. split; [intros y st' [<-|I]; [apply NS | apply A; exact I]|]. split; [exact B|]. split; [exact C|].
        rewrite <- app_assoc in D. exact D.
      - right. split; [intros y st' [<-|I]; [apply NS | apply A; exact I]|]. exists m. rewrite <- app_assoc in B. split; [exact B | exact C]. }
    destruct x as [[| |b|b|d|t]|l].
    + left. apply (STOP 0); [constructor | reflexivity].
    + apply (GO made); [intros st' E; inversion E | apply made_more; [intros d; discriminate | exact G] | reflexivity].
    + apply (GO made); [intros st' E; inversion E | apply made_more; [intros d; discriminate | exact G] | reflexivity].
    + apply (GO made); [intros st' E; inversion E | apply made_more; [intros d; discriminate | exact G] | reflexivity].
    + pose proof (output_iff done made d G) as O. destruct (arg_output at_path can_make made d) as [made'|] eqn:E.
      * destruct O as [U G']. apply (GO made'); [intros st' X; inversion X; contradiction | exact G' |]. cbn [map item_t t_of take_all]. rewrite E. reflexivity.
      * left. apply (STOP 1); [constructor; exact O|]. cbn [map item_t t_of take_all]. rewrite E. reflexivity.
    + pose proof (codes_iff t) as O. destruct (arg_lintcode t) as [cs|] eqn:E.
      * apply (GO made); [|apply made_more; [intros d; discriminate | exact G] | cbn [map item_t t_of take_all]; rewrite E; reflexivity].
        intros st' X. inversion X as [| |? H|]; subst. apply H. exists cs. apply C61_codes. exact E.
      * left. apply (STOP 1); [constructor; apply O; reflexivity|]. cbn [map item_t t_of take_all]. rewrite E. reflexivity.
    + pose proof (inputs_iff l) as O. destruct (sequence (map (arg_input at_path file_at) l)) as [ps|] eqn:E.
      * destruct O as [-> F]. apply (GO made); [|apply made_more; [intros d; discriminate | exact G] | cbn [map item_t take_all]; rewrite E; reflexivity].
        intros st' X. inversion X as [| | |? s I N]; subst. rewrite Forall_forall in F. exact (N (F _ I)).
      * destruct O as (s & I & N). left. apply (STOP 1); [econstructor; eassumption|]. cbn [map item_t take_all]. rewrite E. reflexivity.
Qed.
Lemma good_nil : good_made [] [].
Proof. split; [|intros d []]. split; [constructor|]. intros d. split; [intros [] | intros [[] _]]. Qed.

(** The namespace says what the settings say. *)
Lemma field_says {A} (kind : setting -> A -> Prop) (f : namespace -> A) :
  (forall n s, (exists y, kind s y /\ f (set n (Setting s)) = y) \/ ((forall y, ~ kind s y) /\ f (set n (Setting s)) = f n)) ->
  (forall n l, f (set n (Inputs l)) = f n) ->
  forall its n, last_says kind (f n) (flat_map (fun x => match x with Setting s => [s] | Inputs _ => [] end) its) (f (fold_left set its n)).
Proof.
  intros HS HI its. induction its as [|x its IH]; intros n; cbn [flat_map fold_left]; [apply last_nil|]. destruct x as [s|l]; cbn [app].
  - destruct (HS n s) as [(y & K & E)|(N & E)]; specialize (IH (set n (Setting s))); rewrite E in IH.
    + exact (last_here _ _ _ _ _ _ K IH).
    + exact (last_there _ _ _ _ _ N IH).
  - specialize (IH (set n (Inputs l))). rewrite HI in IH. exact IH.
Qed.
Lemma settings_of pre ins post :
  flat_map (fun x => match x with Setting s => [s] | Inputs _ => [] end) (items pre ins post) = pre ++ post.
Proof.
  unfold items. rewrite flat_map_app. cbn [flat_map app].
  assert (X : forall l, flat_map (fun x => match x with Setting s => [s] | Inputs _ => [] end) (map Setting l) = l) by (induction l as [|y l IH]; cbn; [|rewrite IH]; reflexivity).
  rewrite !X. reflexivity.
Qed.
Lemma inputs_of pre ins post n : n_inputs (fold_left set (items pre ins post) n) = map file_at ins.
Proof.
  unfold items. rewrite fold_left_app. cbn [fold_left].
  assert (X : forall l m, n_inputs (fold_left set (map Setting l) m) = n_inputs m).
  { induction l as [|s l IH]; intros m; cbn [map fold_left]; [reflexivity|]. rewrite IH. destruct s; reflexivity. }
  rewrite X. reflexivity.
Qed.
Definition command_of (n : namespace) : command :=
  mkCommand (n_skip n) (n_ignore n) (n_validate n) (match n_output n with Some s => dir_at s | None => cwd end) cwd (n_inputs n).
Lemma means_of pre ins post : let n := fold_left set (items pre ins post) ns0 in meaning pre ins post (command_of n) (n_verbose n).
Proof.
  intros n. unfold meaning, means. cbn [command_of k_skip k_validate k_ignore k_out k_cwd k_inputs]. rewrite <- (settings_of pre ins post).
  assert (S1 : forall A (a : A), exists y, y = a) by (intros A a; exists a; reflexivity).
  split; [apply (field_says says_skip n_skip); [intros m [| |b|b|d|t]; cbn [set n_skip]; first [right; split; [intros y (E & _); discriminate | reflexivity] | left; exists true; repeat split] | reflexivity]|].
  split; [apply (field_says says_validate n_validate); [intros m [| |b|b|d|t]; cbn [set n_validate]; first [right; split; [intros y E; discriminate | reflexivity] | left; exists b; repeat split] | reflexivity]|].
  split; [apply (field_says says_verbose n_verbose); [intros m [| |b|b|d|t]; cbn [set n_verbose]; first [right; split; [intros y E; discriminate | reflexivity] | left; exists b; repeat split] | reflexivity]|].
  split; [apply (field_says says_ignore n_ignore); [intros m [| |b|b|d|t]; cbn [set n_ignore]; first [right; split; [intros y (z & E & _); discriminate | reflexivity] | left; exists (Some t); split; [exists t; split; reflexivity | reflexivity]] | reflexivity]|].
  split; [exists (n_output n); split; [|reflexivity]; apply (field_says says_output n_output); [intros m [| |b|b|d|t]; cbn [set n_output]; first [right; split; [intros y (z & E & _); discriminate | reflexivity] | left; exists (Some d); split; [exists d; split; reflexivity | reflexivity]] | reflexivity]|].
  split; [reflexivity|]. apply inputs_of.
Qed.
Lemma meaning_fun pre ins post k v k' v' : meaning pre ins post k v -> meaning pre ins post k' v' -> k = k' /\ v = v'.
Proof.
  unfold meaning, means. intros (A1 & A2 & A3 & A4 & (o & A5 & A6) & A7 & A8) (B1 & B2 & B3 & B4 & (o' & B5 & B6) & B7 & B8).
  assert (E1 : k_skip k = k_skip k') by (revert A1 B1; apply last_fun; intros s a b [_ ->] [_ ->]; reflexivity).
  assert (E2 : k_validate k = k_validate k') by (revert A2 B2; apply last_fun; unfold says_validate; intros s a b -> E; congruence).
  assert (E3 : v = v') by (revert A3 B3; apply last_fun; unfold says_verbose; intros s a b -> E; congruence).
  assert (E4 : k_ignore k = k_ignore k') by (revert A4 B4; apply last_fun; intros s a b (x & -> & ->) (y & E & ->); injection E as ->; reflexivity).
  assert (E5 : o = o') by (revert A5 B5; apply last_fun; intros s a b (x & -> & ->) (y & E & ->); injection E as ->; reflexivity).
  split; [|exact E3]. destruct k as [c1 c2 c3 c4 c5 c6], k' as [d1 d2 d3 d4 d5 d6]. cbn [k_skip k_validate k_ignore k_out k_cwd k_inputs] in *. subst. reflexivity.
Qed.
Lemma line_items argv pre ins post : line argv pre ins post -> scan argv = (map item_t (items pre ins post), true).
Proof.
  intros L. rewrite (line_scan _ _ _ _ L). unfold items. rewrite map_app. cbn [map item_t]. rewrite !map_map. reflexivity.
Qed.

(** ** C90 *)

(** The program starts exactly for command lines in which nothing stands in the way, and what it
    is to do is what the line says. *)
Theorem C90_starts argv k v : (exists made, starting argv = Starts k v made) <->
  exists pre ins post, line argv pre ins post /\ (forall x st, In x (items pre ins post) -> ~ stops x st) /\ meaning pre ins post k v.
Proof.
  unfold starting, start. split.
  - intros (made & H). destruct (scan argv) as [acts [|]] eqn:SC.
    + destruct (scan_line _ _ SC) as (pre & ins & post & L & _). exists pre, ins, post. split; [exact L|]. rewrite (line_items _ _ _ _ L) in SC. injection SC as <-.
      destruct (take_spec (items pre ins post) [] ns0 [] true good_nil) as [(a & x & b & st & m & _ & _ & _ & T & _)|(N & m & _ & T)]; rewrite T in H; [discriminate|].
      split; [exact N|]. cbn [take_all] in H. injection H as <- <- _. apply means_of.
    + exfalso. revert H. assert (X : forall l n m, take_all at_path can_make file_at dir_at cwd l false n m <> Starts k v made).
      { induction l as [|t l IH]; intros n m; cbn [take_all]; [discriminate|]. destruct t; try discriminate; try apply IH.
        - destruct (arg_output _ _ _ _); [apply IH | discriminate].
        - destruct (arg_lintcode _); [apply IH | discriminate].
        - destruct (sequence _); [apply IH | discriminate]. }
      apply X.
  - intros (pre & ins & post & L & N & M). rewrite (line_items _ _ _ _ L).
    destruct (take_spec (items pre ins post) [] ns0 [] true good_nil) as [(a & x & b & st & m & E & _ & S0 & _)|(_ & m & _ & T)].
    + exfalso. apply (N x st); [rewrite E; apply in_or_app; right; left; reflexivity | exact S0].
    + rewrite T. cbn [take_all]. destruct (meaning_fun _ _ _ _ _ _ _ M (means_of pre ins post)) as [-> ->]. exists m. reflexivity.
Qed.

(** A command line says one thing only. *)
Theorem C90_unique argv pre ins post pre' ins' post' : line argv pre ins post -> line argv pre' ins' post' ->
  pre = pre' /\ ins = ins' /\ post = post'.
Proof.
  intros A B. pose proof (line_scan _ _ _ _ A) as EA. rewrite (line_scan _ _ _ _ B) in EA. injection EA as E. clear A B.
  revert pre' E. induction pre as [|x pre IH]; intros [|x' pre'] E; cbn [map app] in E.
  - injection E as -> E. split; [reflexivity|]. split; [reflexivity|]. revert post' E. induction post as [|y post IH]; intros [|y' post'] E; cbn [map] in E; try discriminate; [reflexivity|].
    injection E as E1 E2. apply t_of_inj in E1. subst. f_equal. apply IH. exact E2.
  - injection E as E _. destruct x'; discriminate.
  - injection E as E _. destruct x; discriminate.
  - injection E as E1 E2. apply t_of_inj in E1. subst. destruct (IH _ E2) as (-> & -> & ->). repeat split.
Qed.

(** If something stands in the way, the first such thing ends the program, and only the
    directories named before it have been made. *)
Theorem C90_stops argv pre ins post : line argv pre ins post -> forall st made,
  starting argv = Exits st made ->
  exists a x b, items pre ins post = a ++ x :: b /\ (forall y st', In y a -> ~ stops y st') /\ stops x st /\ makes at_path a made.
Proof.
  intros L st made. unfold starting, start. rewrite (line_items _ _ _ _ L). intros H.
  destruct (take_spec (items pre ins post) [] ns0 [] true good_nil) as [(a & x & b & st' & m & E & N & S0 & T & M)|(_ & m & _ & T)]; rewrite T in H; [|discriminate].
  injection H as <- <-. exists a, x, b. split; [exact E|]. split; [exact N|]. split; [exact S0 | exact M].
Qed.
(** If the program starts it has made the directories that were not there, and no others. *)
Theorem C90_made argv k v made : starting argv = Starts k v made ->
  forall pre ins post, line argv pre ins post -> makes at_path (items pre ins post) made.
Proof.
  unfold starting, start. intros H pre ins post L. rewrite (line_items _ _ _ _ L) in H.
  destruct (take_spec (items pre ins post) [] ns0 [] true good_nil) as [(a & x & b & st' & m & _ & _ & _ & T & _)|(_ & m & M & T)]; rewrite T in H; [discriminate|].
  injection H as _ _ <-. exact M.
Qed.

(** Anything else is refused: the program does not start, with the status 2 unless a request
    for help or a bad value came first.  The status 2 is for nothing else. *)
Theorem C90_refused argv : ~ (exists pre ins post, line argv pre ins post) ->
  exists st made, starting argv = Exits st made /\ In st [0; 1; 2].
Proof.
  intros NL. unfold starting, start. destruct (scan argv) as [acts [|]] eqn:SC.
  - exfalso. apply NL. destruct (scan_line _ _ SC) as (pre & ins & post & L & _). exists pre, ins, post. exact L.
  - clear SC NL. generalize ns0, (@nil str). induction acts as [|t l IH]; intros n m; cbn [take_all].
    + exists 2, m. split; [reflexivity | cbn [In]; tauto].
    + destruct t; try apply IH.
      * exists 0, m. split; [reflexivity | cbn [In]; tauto].
      * destruct (arg_output _ _ _ _); [apply IH|]. exists 1, m. split; [reflexivity | cbn [In]; tauto].
      * destruct (arg_lintcode _); [apply IH|]. exists 1, m. split; [reflexivity | cbn [In]; tauto].
      * destruct (sequence _); [apply IH|]. exists 1, m. split; [reflexivity | cbn [In]; tauto].
Qed.
Theorem C90_usage argv made : starting argv = Exits 2 made -> ~ (exists pre ins post, line argv pre ins post).
Proof.
  intros H (pre & ins & post & L). destruct (C90_stops _ _ _ _ L _ _ H) as (a & x & b & _ & _ & S0 & _). inversion S0.
Qed.

(** Inputs that are not next to each other are refused. *)
Theorem C90_split a xa i b xb j c : options a xa -> Forall operand i -> i <> [] -> options b xb -> b <> [] -> operand j ->
  forall k v made, starting (a ++ i ++ b ++ j :: c) <> Starts k v made.
Proof.
  intros OA F N OB NB OJ k v made H.
  destruct (proj1 (C90_starts _ k v) (ex_intro _ made H)) as (pre & ins & post & L & _). pose proof (line_scan _ _ _ _ L) as SC. clear - OA F N OB NB OJ SC.
  apply (f_equal snd) in SC. cbn [snd] in SC. unfold scan in SC.
  destruct (options_read _ _ OA) as (WA & EA & CA), (options_read _ _ OB) as (WB & EB & CB). rewrite EA, (operands_read _ F), EB in SC.
  rewrite (words_cons j c (WArg j)) in SC; [|apply operand_dashes; exact OJ | apply operand_iff; split; [exact OJ | reflexivity]].
  destruct (words c) as [wc|]; [|discriminate]. rewrite CA in SC by (right; reflexivity). cbn [flush app after_flush prepend snd] in SC.
  rewrite args_run, CB in SC by (left; exact NB). cbn [app] in SC. destruct (flush_some _ N) as [FL AF]. rewrite AF in SC. cbn [prepend snd consume] in SC.
  rewrite extra_snd in SC. discriminate.
Qed.

(** An option that could be two is refused before anything is done. *)
Theorem C90_ambiguous a v b : ~ In (utf8 "--") a -> ambiguous v -> starting (a ++ v :: b) = Exits 2 [].
Proof.
  intros NA AM. unfold starting, start, scan. destruct (ambiguous_none _ AM) as [PO SD].
  assert (W : words (a ++ v :: b) = None).
  { induction a as [|s a IH]; cbn [app words].
    - rewrite SD, PO. reflexivity.
    - destruct (seqb s (utf8 "--")) eqn:E; [apply seqb_iff in E; destruct NA; left; exact E|]. rewrite IH; [destruct (parse_optional s); reflexivity|].
      intros I. apply NA. right. exact I. }
  rewrite W. reflexivity.
Qed.
(** Otherwise, of the options before the inputs the first that stands in the way ends the program,
    whatever follows. *)
Theorem C90_early a xs p x q st rest : options a xs -> map Setting xs = p ++ x :: q ->
  (forall y st', In y p -> ~ stops y st') -> stops x st ->
  (forall r v r', rest = r ++ v :: r' -> ~ In (utf8 "--") r -> ~ ambiguous v) ->
  exists made, starting (a ++ rest) = Exits st made /\ makes at_path p made.
Proof.
  intros OA E NP SX AM. unfold starting, start, scan. destruct (options_read _ _ OA) as (WA & EA & CA). rewrite EA.
  assert (W : words rest <> None).
  { induction rest as [|s rest IH]; cbn [words]; [discriminate|]. destruct (seqb s (utf8 "--")) eqn:D; [discriminate|].
    assert (ND : s <> utf8 "--") by (intros ->; rewrite seqb_refl in D; discriminate).
    destruct (parse_optional s) as [w|] eqn:P.
    - destruct (words rest) as [ws|]; [discriminate|]. exfalso. apply IH; [|reflexivity]. intros r v r' -> NI. apply (AM (s :: r) v r' eq_refl).
      intros [X|X]; [congruence | exact (NI X)].
    - exfalso. destruct (none_ambiguous _ P) as [A|A]; [|congruence]. exact (AM [] s rest eq_refl (fun f => f) A). }
  destruct (words rest) as [ws|]; [|congruence]. rewrite CA by (right; reflexivity). cbn [flush app after_flush].
  destruct (consume ws false false []) as [l ok]. unfold prepend. cbn [fst snd].
  assert (M : map t_of xs ++ l = map item_t (p ++ [x]) ++ map item_t q ++ l).
  { rewrite app_assoc, <- map_app, <- app_assoc. cbn [app]. rewrite <- E, map_map. reflexivity. }
  rewrite M. clear - NP SX. rewrite map_app. cbn [map]. rewrite <- app_assoc. cbn [app].
  assert (X : exists made, makes at_path ([] ++ p) made
    /\ take_all at_path can_make file_at dir_at cwd (map item_t p ++ item_t x :: map item_t q ++ l) ok ns0 [] = Exits st made).
  { generalize (@nil item) as dn, (@nil str) as md, ns0 as n, good_nil. intros dn md n G. revert dn md n G. induction p as [|y p IH]; intros dn md n G.
    - exists md. rewrite app_nil_r. split; [exact (proj1 G)|]. cbn [map app]. inversion SX as [|d U|t U|ls s I U]; subst; cbn [item_t t_of take_all].
      + reflexivity.
      + pose proof (output_iff _ _ d G) as O. destruct (arg_output at_path can_make md d); [destruct O; contradiction | reflexivity].
      + pose proof (codes_iff t) as O. destruct (arg_lintcode t) as [cs|] eqn:A; [|reflexivity]. destruct U. exists cs. apply C61_codes. exact A.
      + pose proof (inputs_iff ls) as O. destruct (sequence _); [|reflexivity]. destruct O as [_ F]. rewrite Forall_forall in F. destruct (U (F _ I)).
    - assert (NP' : forall z st', In z p -> ~ stops z st') by (intros z st' I; apply NP; right; exact I).
      assert (NY : forall st', ~ stops y st') by (intros st'; apply NP; left; reflexivity).
      cbn [map app]. destruct y as [[| |b|b|d|t]|ls]; cbn [item_t t_of take_all].
      + destruct (NY 0). constructor.
      + destruct (IH NP' (dn ++ [Setting Skip]) md (set n (Setting Skip))) as (m & A & B); [apply made_more; [discriminate | exact G]|]. exists m. rewrite <- app_assoc in A. split; assumption.
      + destruct (IH NP' (dn ++ [Setting (Validate b)]) md (set n (Setting (Validate b)))) as (m & A & B); [apply made_more; [discriminate | exact G]|]. exists m. rewrite <- app_assoc in A. split; assumption.
      + destruct (IH NP' (dn ++ [Setting (Verbose b)]) md (set n (Setting (Verbose b)))) as (m & A & B); [apply made_more; [discriminate | exact G]|]. exists m. rewrite <- app_assoc in A. split; assumption.
      + pose proof (output_iff _ _ d G) as O. destruct (arg_output at_path can_make md d) as [md'|]; [|destruct (NY 1); constructor; exact O].
        destruct O as [_ G']. destruct (IH NP' (dn ++ [Setting (Output d)]) md' (set n (Setting (Output d))) G') as (m & A & B). exists m. rewrite <- app_assoc in A. split; assumption.
      + pose proof (codes_iff t) as O. destruct (arg_lintcode t) as [cs|]; [|destruct (NY 1); constructor; apply O; reflexivity].
        destruct (IH NP' (dn ++ [Setting (Ignore t)]) md (set n (Setting (Ignore t)))) as (m & A & B); [apply made_more; [discriminate | exact G]|]. exists m. rewrite <- app_assoc in A. split; assumption.
      + pose proof (inputs_iff ls) as O. destruct (sequence _) as [ps|]; [|destruct O as (s & I & U); destruct (NY 1); econstructor; eassumption].
        destruct O as [-> _]. destruct (IH NP' (dn ++ [Inputs ls]) md (set n (Inputs ls))) as (m & A & B); [apply made_more; [discriminate | exact G]|]. exists m. rewrite <- app_assoc in A. split; assumption. }
  destruct X as (m & A & B). exists m. split; [exact B | exact A].
Qed.
(** A line without inputs is refused. *)
Theorem C90_no_input argv xs : options argv xs -> (forall y st, In y (map Setting xs) -> ~ stops y st) ->
  exists made, starting argv = Exits 2 made /\ makes at_path (map Setting xs) made.
Proof.
  intros O N. unfold starting, start, scan. destruct (options_read _ _ O) as (W & E & C). specialize (E []). rewrite app_nil_r in E. rewrite E. cbn [words]. rewrite app_nil_r.
  specialize (C [] false false [] (or_intror eq_refl)). rewrite app_nil_r in C. rewrite C. cbn [consume flush after_flush app negb andb]. unfold prepend. cbn [fst snd]. rewrite app_nil_r.
  assert (M : map t_of xs = map item_t (map Setting xs)) by (rewrite map_map; reflexivity). rewrite M.
  destruct (take_spec (map Setting xs) [] ns0 [] false good_nil) as [(a & x & b & st' & m & EE & _ & S0 & _)|(_ & m & MK & T)].
  - exfalso. apply (N x st'); [rewrite EE; apply in_or_app; right; left; reflexivity | exact S0].
  - exists m. rewrite T. split; [reflexivity | exact MK].
Qed.

(** The inputs of a program that starts have been found, there is one at least, and the codes
    to be ignored exist. *)
Theorem C90_checked (d : disk) argv k v made : (forall s, at_path s = AFile -> d (file_at s) <> None) ->
  starting argv = Starts k v made ->
  k_inputs k <> [] /\ Forall (fun p => d p <> None) (k_inputs k) /\ exists cs, ignores (k_ignore k) cs.
Proof.
  intros HD H. destruct (proj1 (C90_starts _ k v) (ex_intro _ made H)) as (pre & ins & post & L & N & (_ & _ & _ & IG & _ & _ & KI)). rewrite KI.
  assert (NI : ins <> []) by (destruct L; assumption). split; [destruct ins; [congruence | discriminate]|]. split.
  - apply Forall_forall. intros p I. apply in_map_iff in I as (s & <- & I). apply HD. destruct (at_path s) eqn:E; try reflexivity;
    (exfalso; apply (N (Inputs ins) 1); [unfold items; apply in_or_app; right; left; reflexivity | apply (ends_input _ _ _ ins s I); congruence]).
  - destruct IG as [(l1 & s & l2 & E & (t & -> & K) & _)|(_ & K)].
    + rewrite K. assert (I : In (Setting (Ignore t)) (items pre ins post)) by (apply settings_in; rewrite E; apply in_or_app; right; left; reflexivity).
      destruct (arg_lintcode t) as [cs|] eqn:A; [exists cs; apply C61_codes; exact A|]. exfalso. apply (N _ 1 I). constructor. apply codes_iff. exact A.
    + exists []. rewrite K. reflexivity.
Qed.
End Args.
Print Assumptions C90_starts.
Print Assumptions C90_unique.
Print Assumptions C90_stops.
Print Assumptions C90_made.
Print Assumptions C90_refused.
Print Assumptions C90_usage.
Print Assumptions C90_split.
Print Assumptions C90_ambiguous.
Print Assumptions C90_early.
Print Assumptions C90_no_input.
Print Assumptions C90_checked.

(** ** Examples *)

(** Two files and a directory. *)
Definition ar_at (s : str) : thing :=
  if smem s [utf8 "a.docx"; utf8 "b.html"] then AFile else if seqb s (utf8 "old") then ADir else Nothing.
Definition ar_start (argv : list str) : started :=
  starting ar_at (fun _ => true) (fun s => (utf8 "/w", s)) (fun s => utf8 "/w/" ++ s) (utf8 "/w") argv.
(** spex -svo old --lint=T1000 a.docx b.html --no-verb -onew *)
Definition ar_line : list str :=
  [utf8 "-svo"; utf8 "old"; utf8 "--lint=T1000"; utf8 "a.docx"; utf8 "b.html"; utf8 "--no-verb"; utf8 "-onew"].
Definition ar_command : command :=
  mkCommand true (Some (utf8 "T1000")) false (utf8 "/w/new") (utf8 "/w") [(utf8 "/w", utf8 "a.docx"); (utf8 "/w", utf8 "b.html")].
Example C90_sample : ar_start ar_line = Starts ar_command false [utf8 "new"].
Proof. vm_compute. reflexivity. Qed.
(** The line says this. *)
Lemma stands_check w name : one_long w = true -> In name long_names -> startswith w (utf8 name) = true -> stands w name.
Proof.
  intros O I P. apply startswith_iff in P. destruct (one_stands _ O) as (n & A & B & U). rewrite (U _ I P). split; [exact A | split; assumption].
Qed.
Lemma plain_operand s : startswith [45] s = false -> operand s.
Proof. intros H. left. intros X. apply startswith_iff in X. congruence. Qed.
Example C90_sample_line :
  line ar_line [Skip; Verbose true; Output (utf8 "old"); Ignore (utf8 "T1000")] [utf8 "a.docx"; utf8 "b.html"] [Verbose false; Output (utf8 "new")].
Proof.
  apply (line_plain [utf8 "-svo"; utf8 "old"; utf8 "--lint=T1000"] [Skip; Verbose true; Output (utf8 "old"); Ignore (utf8 "T1000")]
    [utf8 "a.docx"; utf8 "b.html"] [utf8 "--no-verb"; utf8 "-onew"]).
  - apply (op_cons [utf8 "-svo"; utf8 "old"] [Skip; Verbose true; Output (utf8 "old")]).
    + apply (oi_dir [115; 118] [Skip; Verbose true] (utf8 "old")); [repeat constructor | apply plain_operand; vm_compute; reflexivity].
    + apply (op_cons [utf8 "--lint=T1000"] [Ignore (utf8 "T1000")] [] []); [|constructor].
      apply (oi_equals (utf8 "--lint") "--lint-ignore" Ignore (utf8 "T1000")); [apply stands_check; [vm_compute; reflexivity | | vm_compute; reflexivity] | ]; unfold long_names, flags, valued; cbn [map fst app In]; tauto.
  - discriminate.
  - apply Forall_cons; [apply plain_operand; vm_compute; reflexivity|]. apply Forall_cons; [apply plain_operand; vm_compute; reflexivity | apply Forall_nil].
  - apply (op_cons [utf8 "--no-verb"] [Verbose false]).
    + apply (oi_flag _ "--no-verbose"); [apply stands_check; [vm_compute; reflexivity | | vm_compute; reflexivity] | ]; unfold long_names, flags, valued; cbn [map fst app In]; tauto.
    + apply (op_cons [utf8 "-onew"] [Output (utf8 "new")] [] []); [|constructor]. apply (oi_dir_here [] [] (utf8 "new")); [constructor | discriminate | intros X; apply startswith_iff in X; vm_compute in X; discriminate].
Qed.
(** Inputs can not be given anywhere. *)
Theorem C90_anywhere_refuted : exists a b, ar_at a = AFile /\ ar_at b = AFile
  /\ ar_start [a; utf8 "-s"; b] = Exits 2 [] /\ exists k v, ar_start [utf8 "-s"; a; b] = Starts k v [].
Proof. exists (utf8 "a.docx"), (utf8 "b.html"). repeat split; try (vm_compute; reflexivity). do 2 eexists. vm_compute. reflexivity. Qed.
(** A directory is made even if the program then does not start. *)
Theorem C90_unmade_refuted : exists argv st d, ar_start argv = Exits st [d] /\ ar_at d = Nothing.
Proof. exists [utf8 "-o"; utf8 "new"; utf8 "c.html"], 1, (utf8 "new"). split; vm_compute; reflexivity. Qed.
(** The other ways to end: help, too short an option, no input, "--", a number. *)
Example C90_sample_ends :
  ar_start [utf8 "--h"; utf8 "--foo"] = Exits 0 [] /\ ar_start [utf8 "a.docx"; utf8 "--v"] = Exits 2 []
  /\ ar_start [utf8 "-o"; utf8 "new"] = Exits 2 [utf8 "new"] /\ ar_start [utf8 "-o"; utf8 "a.docx"; utf8 "b.html"] = Exits 1 []
  /\ ar_start [utf8 "--lint-ignore"; utf8 "T1"; utf8 "b.html"] = Exits 1 []
  /\ ar_start [utf8 "a.docx"; utf8 "-s"; utf8 "--"] = Exits 2 []
  /\ ar_start [utf8 "--"; utf8 "-s"] = Exits 1 [] /\ ar_start [utf8 "-5"] = Exits 1 [] /\ ar_start [utf8 "-x"; utf8 "a.docx"] = Exits 2 [].
Proof. repeat split; vm_compute; reflexivity. Qed.
Example C90_sample_ambiguous : ambiguous (utf8 "--v") /\ ambiguous (utf8 "--no=x") /\ operand (utf8 "-5") /\ operand (utf8 "-x y").
Proof.
  assert (A : forall s w n1 n2, In n1 long_names -> In n2 long_names -> n1 <> n2 -> startswith (utf8 "--") w && startswith w (utf8 n1) && startswith w (utf8 n2) = true ->
    (s = w /\ w <> utf8 "--" \/ exists x, s = w ++ 61 :: x) -> ambiguous s).
  { intros s w n1 n2 I1 I2 N B F. apply andb_true_iff in B as [B P2]. apply andb_true_iff in B as [B P1]. apply startswith_iff in B, P1, P2. exists w, n1, n2. repeat (split; [assumption|]). exact F. }
  split; [|split; [|split]].
  - apply (A _ (utf8 "--v") "--validate-json" "--verbose"); [unfold long_names, flags, valued; cbn [map fst app In]; tauto | unfold long_names, flags, valued; cbn [map fst app In]; tauto | discriminate | vm_compute; reflexivity |].
    left. split; [reflexivity | vm_compute; discriminate].
  - apply (A _ (utf8 "--no") "--no-validate-json" "--no-verbose"); [unfold long_names, flags, valued; cbn [map fst app In]; tauto | unfold long_names, flags, valued; cbn [map fst app In]; tauto | discriminate | vm_compute; reflexivity |].
    right. exists [120]. vm_compute. reflexivity.
  - apply (operand_iff _ (utf8 "-5")). vm_compute. reflexivity.
  - apply (operand_iff _ (utf8 "-x y")). vm_compute. reflexivity.
Qed.
