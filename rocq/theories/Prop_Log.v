(** C86: what the console shows and what the log file holds. *)
From Coq Require Import NArith ZArith List Bool String Permutation Lia ZifyBool ZifyN ZifyNat.
From Verif Require Import PyStr PyTables PyStrFacts Json SpecJson JsonText JsonProofs Prop_Json SpecCli Prop_Cli Prop_Client
  LabelProofs NameProofs Log SpecLog.
Import ListNotations.
Local Open Scope string_scope.
Local Open Scope list_scope.
Local Open Scope N_scope.

(** ** Lines are printable ASCII *)

Lemma hex_ascii n : n < 16 -> 32 <= hex_digit n <= 126.
Proof. unfold hex_digit. destruct (N.ltb_spec n 10); lia. Qed.
Lemma u_ascii n : n < 65536 -> ascii (u_escape n).
Proof.
  intros H. unfold u_escape, hex4, ascii.
  repeat (apply Forall_cons; [first [lia | apply hex_ascii; first [apply N.mod_lt; lia | apply N.div_lt_upper_bound; lia]]|]). constructor.
Qed.
Lemma enc_ascii c : ascii (enc_char_ascii c).
Proof.
  unfold enc_char_ascii. destruct (short_escape c) as [e|] eqn:E.
  - assert (32 <= e <= 126).
    { unfold short_escape in E. repeat match type of E with (if ?b then _ else _) = _ => destruct b end; inversion E; lia. }
    repeat (apply Forall_cons; [lia|]). constructor.
  - destruct ((32 <=? c) && (c <=? 126)) eqn:B; [constructor; [lia | constructor]|].
    destruct (N.ltb_spec c 65536); [apply u_ascii; assumption|].
    cbn zeta. apply ascii_app; apply u_ascii; [pose proof (N.mod_lt ((c - 65536) / 1024) 1024) | pose proof (N.mod_lt (c - 65536) 1024)]; lia.
Qed.
Lemma quoted_ascii s : ascii (quoted enc_char_ascii s).
Proof.
  unfold quoted. apply Forall_cons; [lia|]. apply ascii_app; [|repeat constructor; lia].
  induction s as [|c s IH]; cbn [flat_map]; [constructor | apply ascii_app; [apply enc_ascii | exact IH]].
Qed.
Lemma join_ascii sep l : ascii sep -> Forall ascii l -> ascii (join sep l).
Proof.
  intros A. induction 1 as [|a [|b l] H F IH]; [constructor | exact H|]. change (join sep (a :: b :: l)) with (a ++ sep ++ join sep (b :: l)).
  repeat apply ascii_app; assumption.
Qed.
Lemma int_ascii z : ascii (str_of_Z z).
Proof.
  pose proof (str_of_Z_jint z) as J. inversion J as [s n N E|s n N E]; destruct N as (_ & D & _); [|apply Forall_cons; [lia|]];
    (eapply Forall_impl; [|exact D]; cbn; intros; lia).
Qed.
Lemma dump_ascii j : forall n, ascii (dump enc_char_ascii (fun _ => []) [44; 32] n j).
Proof.
  assert (ONE : forall c, 32 <= c <= 126 -> ascii [c]) by (intros; apply Forall_cons; [assumption | constructor]).
  assert (SEP : ascii ([44; 32] ++ [])) by (repeat (apply Forall_cons; [lia|]); constructor).
  induction j as [|[]|z|s|l IH|l IH] using json_rec'; intros n; cbn [dump]; try (apply ascii_utf8; reflexivity).
  - apply int_ascii.
  - apply quoted_ascii.
  - destruct l as [|a l]; [apply ascii_utf8; reflexivity|].
    repeat apply ascii_app; try (apply ONE; lia); try constructor. apply join_ascii; [exact SEP|].
    apply Forall_map. eapply Forall_impl; [|exact IH]. cbn. auto.
  - destruct l as [|a l]; [apply ascii_utf8; reflexivity|].
    repeat apply ascii_app; try (apply ONE; lia); try constructor. apply join_ascii; [exact SEP|].
    apply Forall_map. eapply Forall_impl; [|exact IH]. intros p H.
    apply ascii_app; [apply quoted_ascii | apply ascii_app; [apply ascii_utf8; reflexivity | apply H]].
Qed.
Lemma dumps_ascii j : ascii (dumps j).
Proof. apply dump_ascii. Qed.

(** ** Lines are JSON *)

Lemma proper_strings j : proper_json j -> strings_in (Forall scalar) j.
Proof.
  induction j as [|b|z|s|l IH|l IH] using json_rec'; intros H; try exact Logic.I.
  - exact H.
  - apply strings_list. induction IH as [|a l A IH IHl]; [constructor|]. destruct H as [H1 H2]. constructor; [apply A, H1 | apply IHl, H2].
  - apply strings_obj. induction IH as [|a l A IH IHl]; [constructor|]. destruct H as [[H0 H1] H2]. constructor; [split; [exact H0 | apply A, H1] | apply IHl, H2].
Qed.
Lemma utf8_scalar s : forallb (fun c => (32 <=? c) && (c <=? 126)) (utf8 s) = true -> Forall scalar (utf8 s).
Proof. intros. apply ascii_scalar, ascii_utf8. assumption. Qed.
Lemma frame_strings f : proper_frame f -> strings_in (Forall scalar) (frame_json f).
Proof.
  intros (A & B & C). apply strings_obj.
  repeat (apply Forall_cons; [split; [apply utf8_scalar; reflexivity|]; cbn [snd]|]); try constructor; try assumption.
  destruct (fr_lineno f); exact Logic.I.
Qed.
Lemma exc_strings e : proper_exc e -> strings_in (Forall scalar) (jsonify_exc e).
Proof.
  induction 1 as [t m fs T M F|t m fs c T M F P IH]; cbn [jsonify_exc]; apply strings_obj;
    repeat (apply Forall_cons; [split; [apply utf8_scalar; reflexivity|]; cbn [snd]|]); try constructor; try assumption;
    apply strings_list, Forall_map; eapply Forall_impl; try exact F; apply frame_strings.
Qed.
Lemma record_strings r : proper_record r -> strings_in (Forall scalar) (log_json r).
Proof.
  intros (A & B & C & D & X & E). unfold log_json. apply strings_obj. apply Forall_app. split; [|apply Forall_app; split].
  - repeat (apply Forall_cons; [split; [apply utf8_scalar; reflexivity|]; cbn [snd]|]); try constructor; try assumption.
  - apply proper_strings in X. destruct (lr_extra r) as [|p x]; [constructor|].
    apply Forall_cons; [|constructor]. split; [apply utf8_scalar; reflexivity | exact X].
  - destruct (lr_exc r) as [e|]; [|constructor]. apply Forall_cons; [|constructor]. split; [apply utf8_scalar; reflexivity | apply exc_strings, E].
Qed.

Lemma members_refl l : members (JObj l) l.
Proof. exists l. split; [reflexivity | apply Permutation_refl]. Qed.
Lemma frame_tells f : tells_frame f (frame_json f).
Proof.
  exists (match fr_lineno f with Some z => JInt z | None => JNull end). split; [apply members_refl | destruct (fr_lineno f); reflexivity].
Qed.
Lemma exc_tells : forall e, tells_exc e (jsonify_exc e).
Proof.
  fix exc_tells 1. intros e. destruct e as [t m fs [c|]].
  - apply (te_caused t m fs (map frame_json fs) c (jsonify_exc c)); [|apply exc_tells | apply members_refl].
    clear. induction fs; constructor; [apply frame_tells | assumption].
  - apply (te_root t m fs (map frame_json fs)); [|apply members_refl].
    clear. induction fs; constructor; [apply frame_tells | assumption].
Qed.
Lemma record_tells r : tells r (log_json r).
Proof.
  exists (match lr_extra r with [] => [] | x => [(utf8 "extra", JObj x)] end),
    (match lr_exc r with Some e => [(utf8 "exception", jsonify_exc e)] | None => [] end).
  split; [apply members_refl|]. split.
  - destruct (lr_extra r) as [|p x]; [left; auto | right; split; [discriminate | reflexivity]].
  - destruct (lr_exc r) as [e|]; [right | left; auto]. exists e, (jsonify_exc e). split; [reflexivity|]. split; [apply exc_tells | reflexivity].
Qed.

(** A value that is written on its own is JSON text. *)
Lemma dumps_text j : strings_in (Forall scalar) j -> json_text (dumps j) j.
Proof.
  intros H. exists [], (dumps j), []. rewrite app_nil_r. split; [reflexivity|]. split; [constructor|]. split; [constructor | apply dumps_jvalue, H].
Qed.
Lemma log_line_of r : proper_record r -> line_of r (dumps (log_json r)).
Proof. intros P. split; [apply dumps_ascii|]. exists (log_json r). split; [apply dumps_text, record_strings, P | apply record_tells]. Qed.

(** ** Levels *)

Definition level_in (ls : list string) (l : str) : bool := smem l (map utf8 ls).
Lemma level_in_iff ls l : level_in ls l = true <-> In l (map utf8 ls).
Proof. apply smem_In. Qed.
Lemma handled_in m l : handled m l = true -> exists n, In (l, n) levels.
Proof.
  unfold handled, severity. destruct (find (fun p => seqb (fst p) m) levels); [|discriminate].
  destruct (find (fun p => seqb (fst p) l) levels) as [[a n]|] eqn:F; [|discriminate].
  apply find_some in F as [F E]. cbn [fst] in E. apply seqb_eq in E. subst a. intros _. exists n. exact F.
Qed.
Lemma handled_iff m ls l :
  forallb (fun p => Bool.eqb (handled m (fst p)) (level_in ls (fst p))) levels = true ->
  forallb (fun x => handled m (utf8 x)) ls = true ->
  handled m l = true <-> In l (map utf8 ls).
Proof.
  intros A B. rewrite forallb_forall in A, B. split.
  - intros H. destruct (handled_in m l H) as (n & N). specialize (A _ N). cbn [fst] in A. rewrite H in A.
    apply level_in_iff. destruct (level_in ls l); [reflexivity | discriminate].
  - intros H. apply in_map_iff in H as (x & <- & H). apply B, H.
Qed.
Lemma user_handled l : handled (utf8 "U_INFO") l = true <-> user_level l.
Proof. apply handled_iff; vm_compute; reflexivity. Qed.
Lemma debug_handled l : handled (utf8 "DEBUG") l = true <-> user_level l \/ program_level l.
Proof.
  unfold user_level, program_level. rewrite <- in_app_iff, <- map_app. apply handled_iff; vm_compute; reflexivity.
Qed.

Lemma those_filter {A} (P : A -> Prop) f l : (forall a, f a = true <-> P a) -> those P l (filter f l).
Proof.
  intros H. induction l as [|a l IH]; cbn [filter]; [constructor|]. destruct (f a) eqn:E.
  - apply th_in; [apply H, E | exact IH].
  - apply th_out; [rewrite <- H; congruence | exact IH].
Qed.
Lemma those_unique {A} (P : A -> Prop) l k k' : those P l k -> those P l k' -> k = k'.
Proof.
  intros H. revert k'. induction H as [|a l k PA H IH|a l k PA H IH]; intros k' H'; inversion H'; subst; try contradiction; f_equal; auto.
Qed.
Lemma those_in {A} (P Q : A -> Prop) l k : Forall Q l -> those P l k -> Forall Q k.
Proof. intros F H. induction H; inversion F; subst; auto. Qed.
Lemma flat_filter {A B} (f : A -> bool) (g : A -> list B) l : flat_map (fun a => if f a then g a else []) l = flat_map g (filter f l).
Proof. induction l as [|a l IH]; cbn [flat_map filter]; [reflexivity|]. destruct (f a); cbn [flat_map app]; rewrite IH; reflexivity. Qed.

(** ** The log file *)

Definition logged (r : record) : Prop := user_level (lr_level r) \/ program_level (lr_level r).
Lemma log_file_filter rs : log_file rs = flat_map log_line (filter (fun r => handled (utf8 "DEBUG") (lr_level r)) rs).
Proof. apply flat_filter. Qed.
Lemma lines_log_of rs : Forall proper_record rs -> log_of rs (flat_map log_line rs).
Proof.
  induction 1 as [|r rs P F IH]; cbn [flat_map]; [constructor|]. unfold log_line at 1. rewrite <- app_assoc. cbn [app].
  apply lo_cons; [apply log_line_of, P | exact IH].
Qed.

(** C86.  The log file holds one line for each record of a level that is logged, in order: the
    JSON text of an object that tells the record. *)
Theorem C86_file rs ks : Forall proper_record rs -> those logged rs ks -> log_of ks (log_file rs).
Proof.
  intros F T. rewrite log_file_filter.
  assert (H : forall r, handled (utf8 "DEBUG") (lr_level r) = true <-> logged r) by (intros; apply debug_handled).
  rewrite (those_unique _ _ _ _ T (those_filter _ _ rs H)). apply lines_log_of.
  exact (those_in _ _ _ _ F (those_filter _ _ rs H)).
Qed.

(** *** The records can be read back from it *)

Lemma jget_perm l l' k : Permutation l l' -> NoDup (map fst l) -> jget k l = jget k l'.
Proof.
  intros P. induction P as [|[a v] l l' P IH|[a v] [b w] l|l l' l'' P1 IH1 P2 IH2]; intros N; [reflexivity|..].
  - inversion N; subst. specialize (IH H2). unfold jget in *. cbn [find fst]. destruct (seqb a k); [reflexivity | exact IH].
  - unfold jget. cbn [find fst]. destruct (seqb b k) eqn:B; destruct (seqb a k) eqn:A; try reflexivity.
    apply seqb_eq in A, B. subst. cbn in N. inversion N as [|? ? X]. exfalso. apply X. left. reflexivity.
  - rewrite IH1 by exact N. apply IH2. eapply Permutation_NoDup; [apply Permutation_map, P1 | exact N].
Qed.
Lemma members_get j l l' : members j l -> members j l' -> nodupb (map fst l) = true -> forall k, jget k l = jget k l'.
Proof.
  intros (o & -> & P) (o' & E & P') N k. injection E as <-. apply jget_perm; [|apply nodupb_ok, N].
  etransitivity; [apply Permutation_sym, P | exact P'].
Qed.
(** The values of the member [k] of both agree. *)
Ltac member H k := let Q := fresh "Q" in pose proof (H (utf8 k)) as Q; vm_compute in Q.

Lemma frame_unique f f' j : tells_frame f j -> tells_frame f' j -> f = f'.
Proof.
  intros (n & M & N) (n' & M' & N'). pose proof (members_get _ _ _ M M' ltac:(vm_compute; reflexivity)) as G.
  destruct f as [a b c d], f' as [a' b' c' d']. cbn [fr_name fr_file fr_lineno fr_line] in *.
  member G "name". member G "file". member G "lineno". member G "line".
  destruct c, c'; subst; try congruence.
Qed.
Lemma frames_unique fs js : Forall2 tells_frame fs js -> forall fs', Forall2 tells_frame fs' js -> fs = fs'.
Proof.
  induction 1 as [|f j fs js H F IH]; intros fs' H'; inversion H'; subst; [reflexivity|]. f_equal; [eapply frame_unique; eassumption | apply IH; assumption].
Qed.
Lemma exc_unique e j : tells_exc e j -> forall e', tells_exc e' j -> e = e'.
Proof.
  induction 1 as [t m fs js j F M|t m fs js c jc j F C IH M]; intros e' H'; inversion H' as [t' m' fs' js' ? F' M'|t' m' fs' js' c' jc' ? F' C' M']; subst;
    pose proof (members_get _ _ _ M M' ltac:(vm_compute; reflexivity)) as G;
    member G "type"; member G "msg"; member G "frames"; member G "cause"; try discriminate.
  - injection Q as <-. injection Q0 as <-. injection Q1 as <-. rewrite (frames_unique _ _ F _ F'). reflexivity.
  - injection Q as <-. injection Q0 as <-. injection Q1 as <-. injection Q2 as <-. rewrite (frames_unique _ _ F _ F'), (IH _ C'). reflexivity.
Qed.
Lemma tells_unique r r' j : tells r j -> tells r' j -> r = r'.
Proof.
  intros (x & e & M & X & E) (x' & e' & M' & X' & E'). destruct r as [a b c d f g h], r' as [a' b' c' d' f' g' h'].
  cbn [lr_level lr_msg lr_file lr_func lr_line lr_extra lr_exc] in *.
  assert (N : nodupb (map fst ([(utf8 "level", JStr a); (utf8 "msg", JStr b); (utf8 "file", JStr c); (utf8 "func", JStr d); (utf8 "line", JInt f)] ++ x ++ e)) = true).
  { destruct X as [[_ ->]|[_ ->]]; destruct E as [[_ ->]|(? & ? & _ & _ & ->)]; vm_compute; reflexivity. }
  pose proof (members_get _ _ _ M M' N) as G. clear M M' N.
  assert (L : a = a' /\ b = b' /\ c = c' /\ d = d' /\ f = f').
  { destruct X as [[_ ->]|[_ ->]]; destruct E as [[_ ->]|(? & ? & _ & _ & ->)]; destruct X' as [[_ ->]|[_ ->]];
      destruct E' as [[_ ->]|(? & ? & _ & _ & ->)];
      member G "level"; member G "msg"; member G "file"; member G "func"; member G "line"; repeat split; congruence. }
  destruct L as (<- & <- & <- & <- & <-).
  assert (g = g') as <-.
  { destruct X as [[-> ->]|[X ->]]; destruct E as [[_ ->]|(? & ? & _ & _ & ->)]; destruct X' as [[-> ->]|[X' ->]];
      destruct E' as [[_ ->]|(? & ? & _ & _ & ->)]; member G "extra"; try discriminate; try reflexivity; injection Q as <-; reflexivity. }
  assert (h = h') as <-; [|reflexivity].
  destruct X as [[_ ->]|[X ->]]; destruct E as [[-> ->]|(ex & jx & -> & EX & ->)]; destruct X' as [[_ ->]|[X' ->]];
    destruct E' as [[-> ->]|(ex' & jx' & -> & EX' & ->)]; member G "exception"; try discriminate; try reflexivity; injection Q as <-;
    rewrite (exc_unique _ _ EX _ EX'); reflexivity.
Qed.

Lemma ascii_line l : Forall (fun c => 32 <= c <= 126) l -> ~ In 10 l.
Proof. intros F I. rewrite Forall_forall in F. specialize (F _ I). lia. Qed.
Lemma split_line (l t l' t' : str) : ~ In 10 l -> ~ In 10 l' -> l ++ 10 :: t = l' ++ 10 :: t' -> l = l' /\ t = t'.
Proof.
  revert l'. induction l as [|c l IH]; intros [|c' l'] N N' E; cbn [app] in E.
  - injection E as <-. auto.
  - injection E as <- _. exfalso. apply N'. left. reflexivity.
  - injection E as -> _. exfalso. apply N. left. reflexivity.
  - injection E as <- E. destruct (IH l') as [<- <-]; [intros I; apply N; right; exact I | intros I; apply N'; right; exact I | exact E|]. auto.
Qed.
(** The text of the file determines the records. *)
Theorem C86_read rs rs' t : log_of rs t -> log_of rs' t -> rs = rs'.
Proof.
  intros H. revert rs'. induction H as [|r rs l t (A & j & J & R) H IH]; intros rs' H'.
  - inversion H' as [|? ? l ? ? ? E]; [reflexivity|]. destruct l; discriminate.
  - inversion H' as [E|r' rs'' l' t' (A' & j' & J' & R') H'' E]; [destruct l; discriminate|]. subst rs'.
    destruct (split_line l' t' l t (ascii_line _ A') (ascii_line _ A) ltac:(assumption)) as [-> ->].
    rewrite (json_text_unique _ _ _ J' J) in R'. rewrite (tells_unique _ _ _ R R'), (IH _ H''). reflexivity.
Qed.

(** *** An interrupted program *)

(** Whatever part of the file got written: it begins with whole lines for the first records
    logged; what follows has no line break and is nothing, or the whole line of the next record
    but for its line break, or not JSON. *)
Theorem C86_interrupted rs ks p q : Forall proper_record rs -> those logged rs ks -> log_file rs = p ++ q ->
  exists k1 k2 t part, p = t ++ part /\ ks = k1 ++ k2 /\ log_of k1 t /\ ~ In 10 part
    /\ (part = [] \/ exists r k3, k2 = r :: k3 /\ (line_of r part \/ forall j, ~ json_text part j)).
Proof.
  intros F T. rewrite log_file_filter.
  assert (H : forall r, handled (utf8 "DEBUG") (lr_level r) = true <-> logged r) by (intros; apply debug_handled).
  rewrite (those_unique _ _ _ _ (those_filter _ _ rs H) T). assert (FK : Forall proper_record ks) by exact (those_in _ _ _ _ F T).
  clear F T H rs. revert p. induction FK as [|r ks P F IH]; intros p E; cbn [flat_map] in E.
  - symmetry in E. apply app_eq_nil in E as [-> ->]. exists [], [], [], []. repeat split; try constructor; auto.
  - unfold log_line in E at 1. rewrite <- app_assoc in E. cbn [app] in E.
    destruct (Nat.leb_spec (List.length p) (List.length (dumps (log_json r)))) as [L|L].
    + assert (exists y, dumps (log_json r) = p ++ y) as (y & Y).
      { exists (skipn (List.length p) (dumps (log_json r))). rewrite <- (firstn_skipn (List.length p)) at 1. f_equal.
        apply (f_equal (firstn (List.length p))) in E. rewrite firstn_app, firstn_app, Nat.sub_diag in E. cbn [firstn] in E.
        rewrite app_nil_r, firstn_all in E. replace (List.length p - List.length (dumps (log_json r)))%nat with 0%nat in E by lia.
        cbn [firstn] in E. rewrite app_nil_r in E. exact E. }
      pose proof (log_line_of r P) as LO. exists [], (r :: ks), [], p. split; [reflexivity|]. split; [reflexivity|]. split; [constructor|].
      split.
      { intros I. apply (ascii_line _ (proj1 LO)). rewrite Y. apply in_or_app. left. exact I. }
      right. exists r, ks. split; [reflexivity|]. destruct y as [|c y].
      * left. rewrite app_nil_r in Y. rewrite <- Y. exact LO.
      * right. intros j J. apply loads_ok in J.
        assert (V : jvalue (dumps (log_json r)) (log_json r)) by apply dumps_jvalue, record_strings, P.
        unfold log_json at 2 in V. rewrite Y in V. rewrite (object_prefix _ _ _ V ltac:(discriminate)) in J. discriminate.
    + assert (exists p', p = dumps (log_json r) ++ 10 :: p' /\ flat_map log_line ks = p' ++ q) as (p' & -> & E').
      { assert (X : forall (a b p q : str), a ++ 10 :: b = p ++ q -> (List.length a < List.length p)%nat -> exists p', p = a ++ 10 :: p' /\ b = p' ++ q).
        { clear. induction a as [|c a IH]; intros b [|c' p] q E L; cbn [app List.length] in *; try lia.
          - injection E as <- E. exists p. auto.
          - injection E as <- E. destruct (IH _ _ _ E ltac:(lia)) as (p' & -> & E'). exists p'. auto. }
        exact (X _ _ _ _ E L). }
      destruct (IH _ E') as (k1 & k2 & t & part & -> & -> & LO & NI & R).
      exists (r :: k1), k2, (dumps (log_json r) ++ 10 :: t), part. split; [rewrite <- app_assoc; reflexivity|]. split; [reflexivity|].
      split; [apply lo_cons; [apply log_line_of, P | exact LO]|]. split; assumption.
Qed.

(** ** The console *)

(** The characters of the words that ask for debugging. *)
Definition debug_char (d : N) : bool := existsb (N.eqb d) [116; 114; 117; 101; 121; 115; 49].
Definition lowers_to (x d : N) : Prop :=
  lower_char x = [d] /\ (isspace d = true -> x = d) /\ (debug_char d = true -> x = d \/ 97 <= d <= 122 /\ x + 32 = d).
Lemma lowers_one x : Forall (fun d => isspace d || debug_char d = true) (lower_char x) -> exists d, lowers_to x d.
Proof.
  intros F. destruct (lower_char_cases x) as [[H1 H2]|[[H1 H2]|[H1 H2]]].
  - eexists. split; [exact H2|]. split.
    + intros H. apply (lower_char_space x); [rewrite H2; left; reflexivity | exact H].
    + intros _. destruct ((65 <=? x) && (x <=? 90)) eqn:E; [right; lia | left; reflexivity].
  - exists x. split; [exact H2|]. auto.
  - exfalso.
    assert (T : forallb (fun p => forallb (fun d => negb (isspace d || debug_char d)) (snd p)) lower_table = true) by (vm_compute; reflexivity).
    rewrite forallb_forall in T. specialize (T _ H2). cbn [snd] in T. pose proof (lower_char_nonempty x) as NE.
    destruct F as [|d l D F]; [congruence|]. cbn [forallb] in T. rewrite D in T. discriminate.
Qed.
Lemma lowers_all v : Forall (fun d => isspace d || debug_char d = true) (lower v) -> Forall2 lowers_to v (lower v).
Proof.
  induction v as [|x v IH]; [constructor|]. rewrite lower_cons. intros F. apply Forall_app in F as [F1 F2].
  destruct (lowers_one x F1) as (d & D). rewrite (proj1 D). constructor; [exact D | apply IH, F2].
Qed.
Lemma lowers_spaces a b : Forall2 lowers_to a b -> forallb isspace b = true -> a = b.
Proof.
  induction 1 as [|x d a b (_ & H & _) F IH]; cbn [forallb]; [reflexivity|]. intros E. apply andb_true_iff in E as [E1 E2].
  rewrite (H E1), (IH E2). reflexivity.
Qed.
Lemma lowers_word a b : Forall2 lowers_to a b -> forallb debug_char b = true -> any_case a (map (fun d => if d =? 49 then 49 else d - 32) b).
Proof.
  induction 1 as [|x d a b (_ & _ & H) F IH]; cbn [forallb map]; [constructor|]. intros E. apply andb_true_iff in E as [E1 E2].
  constructor; [|apply IH, E2]. specialize (H E1). unfold same_letter. unfold debug_char in E1. cbn [existsb] in E1.
  destruct (N.eqb_spec d 49); lia.
Qed.
Lemma debug_iff v : debug_on (Some v) = true <-> asks_debug v.
Proof.
  unfold debug_on. split.
  - intros H. apply existsb_exists in H as (t & I & E). apply seqb_eq in E. destruct (strip_sub isspace (lower v)) as (a & b & EL & A & B).
    fold (strip (lower v)) in EL. rewrite E in EL.
    assert (T : forallb debug_char t = true /\ In (map (fun d => if d =? 49 then 49 else d - 32) t) [utf8 "TRUE"; utf8 "YES"; utf8 "1"])
      by (destruct I as [<-|[<-|[<-|[]]]]; vm_compute; auto).
    destruct T as [T TI].
    assert (F : Forall (fun d => isspace d || debug_char d = true) (lower v)).
    { rewrite EL. apply Forall_app. split; [|apply Forall_app; split]; apply Forall_forall; intros x X.
      - rewrite forallb_forall in A. rewrite (A _ X). reflexivity.
      - rewrite forallb_forall in T. rewrite (T _ X). apply orb_true_r.
      - rewrite forallb_forall in B. rewrite (B _ X). reflexivity. }
    apply lowers_all in F. rewrite EL in F. apply Forall2_app_inv_r in F as (l & r0 & F1 & F2 & ->).
    apply Forall2_app_inv_r in F2 as (w & r & F2 & F3 & ->).
    exists l, w, r, (map (fun d => if d =? 49 then 49 else d - 32) t). split; [reflexivity|].
    rewrite (lowers_spaces _ _ F1 A), (lowers_spaces _ _ F3 B). rewrite forallb_forall in A, B.
    split; [apply Forall_forall, A|]. split; [apply Forall_forall, B|]. split; [apply lowers_word; assumption | exact TI].
  - intros (l & w & r & t & -> & L & R & C & I).
    assert (LB : forall z, Forall (fun x => isspace x = true) z -> lower z = z).
    { intros z F. apply flat_map_id_on. intros x X. rewrite Forall_forall in F. apply lower_char_blank, F, X. }
    rewrite !lower_app, (LB l L), (LB r R).
    assert (W : lower w = lower t).
    { clear I L R LB. induction C as [|x y w t S C IH]; [reflexivity|]. rewrite !lower_cons, IH. f_equal. unfold lower_char.
      destruct S as [->|[S ->]]; [reflexivity|]. replace (y + 32 <? 128) with true by lia. replace (y <? 128) with true by lia.
      replace ((65 <=? y) && (y <=? 90)) with true by lia. replace ((65 <=? y + 32) && (y + 32 <=? 90)) with false by lia. reflexivity. }
    rewrite W. assert (L' : forallb isspace l = true) by (apply forallb_forall; rewrite Forall_forall in L; exact L).
    assert (R' : forallb isspace r = true) by (apply forallb_forall; rewrite Forall_forall in R; exact R).
    assert (X : strip (l ++ lower t ++ r) = lower t).
    { unfold strip. apply NameProofs.strip_between; [exact L' | exact R'|..]; destruct I as [<-|[<-|[<-|[]]]]; vm_compute; auto. }
    rewrite X. destruct I as [<-|[<-|[<-|[]]]]; vm_compute; reflexivity.
Qed.

(** Unless debugging is asked for, the console shows the messages to the user, in order, each
    after a bullet and followed by a line break, and nothing else: no message of another level
    and no stack trace. *)
Theorem C86_console trace env rs ks : (forall v, env = Some v -> ~ asks_debug v) ->
  those (fun r => user_level (lr_level r)) rs ks ->
  console trace env rs = List.concat (map (fun r => [8226; 32] ++ lr_msg r ++ [10]) ks).
Proof.
  intros D T. assert (debug_on env = false) as OFF.
  { destruct env as [v|]; [|vm_compute; reflexivity]. destruct (debug_on (Some v)) eqn:E; [|reflexivity].
    apply debug_iff in E. apply D in E; [destruct E | reflexivity]. }
  unfold console, console_line. rewrite OFF; cbv match.
  rewrite (flat_filter (fun r => handled (utf8 "U_INFO") (lr_level r)) (fun r => bullet ++ lr_msg r ++ [10])), <- flat_map_concat_map. unfold bullet.
  rewrite (those_unique _ _ _ _ T (those_filter _ _ rs (fun r => user_handled (lr_level r)))). reflexivity.
Qed.
(** If it is, the messages of the program are shown too, with the levels of all. *)
Theorem C86_debug trace v rs ks : asks_debug v -> those logged rs ks ->
  console trace (Some v) rs
  = List.concat (map (fun r => lr_level r ++ [32] ++ lr_msg r ++ [10] ++ match lr_exc r with Some e => trace e | None => [] end) ks).
Proof.
  intros D T. apply debug_iff in D.
  unfold console, console_line. rewrite D; cbv match.
  rewrite (flat_filter (fun r => handled (utf8 "DEBUG") (lr_level r))
    (fun r => lr_level r ++ [32] ++ lr_msg r ++ [10] ++ match lr_exc r with Some e => trace e | None => [] end)), <- flat_map_concat_map.
  rewrite (those_unique _ _ _ _ T (those_filter _ _ rs (fun r => debug_handled (lr_level r)))). reflexivity.
Qed.

Print Assumptions C86_file.
Print Assumptions C86_read.
Print Assumptions C86_interrupted.
Print Assumptions C86_console.
Print Assumptions C86_debug.

(** ** The claims are not empty *)

(** A message to the user, one for debugging with an exception and its cause, and one of a level
    that is not logged. *)
Example lg_exc : exc :=
  Exc (utf8 "RuntimeError") (utf8 "no title") [mkFrame (utf8 "parse") (utf8 "a.py") (Some 12%Z) (utf8 "raise")]
    (Some (Exc (utf8 "KeyError") (utf8 "'x'") [] None)).
Example lg_user : record := mkRecord (utf8 "U_ERROR") (utf8 "caf" ++ [233; 10] ++ utf8 "failed") (utf8 "b.py") (utf8 "f") 3 [] None.
Example lg_exn : record :=
  mkRecord (utf8 "ERROR") (utf8 "exception") (utf8 "b.py") (utf8 "f") 4 [(utf8 "row", JStr (utf8 "1:0"))] (Some lg_exc).
Example lg_trace : record := mkRecord (utf8 "TRACE") (utf8 "entered") (utf8 "b.py") (utf8 "f") 5 [] None.
Example lg_rs : list record := [lg_user; lg_trace; lg_exn].

Example lg_proper : Forall proper_record lg_rs.
Proof.
  assert (U : forall s, forallb (fun c => (c <? 128)) s = true -> proper_str s).
  { intros s H. apply Forall_forall. intros c I. rewrite forallb_forall in H. specialize (H c I). lia. }
  assert (ONE : forall l m n x e, forallb (fun c => (c <? 128)) l = true -> proper_str m -> match e with Some e => proper_exc e | None => True end ->
    proper_json (JObj x) -> proper_record (mkRecord l m (utf8 "b.py") (utf8 "f") n x e)).
  { intros l m n x e L M E X. split; [apply U, L|]. split; [exact M|]. split; [apply U; vm_compute; reflexivity|].
    split; [apply U; vm_compute; reflexivity|]. split; [exact X | exact E]. }
  apply Forall_cons; [|apply Forall_cons; [|apply Forall_cons; [|constructor]]]; (apply ONE; [reflexivity|..]); try exact Logic.I.
  - apply Forall_app. split; [apply U; vm_compute; reflexivity|].
    apply Forall_cons; [lia|]. apply Forall_cons; [lia|]. apply U; vm_compute; reflexivity.
  - apply U; vm_compute; reflexivity.
  - apply U; vm_compute; reflexivity.
  - unfold lg_exc. apply pe_caused; [apply U; reflexivity | apply U; reflexivity|..].
    + apply Forall_cons; [|constructor]. repeat split; apply U; vm_compute; reflexivity.
    + apply pe_root; [apply U; reflexivity | apply U; reflexivity | constructor].
  - split; [split; apply U; vm_compute; reflexivity | exact Logic.I].
Qed.
Example lg_those : those logged lg_rs [lg_user; lg_exn].
Proof. apply (those_filter logged (fun r => handled (utf8 "DEBUG") (lr_level r)) lg_rs). intros. apply debug_handled. Qed.
Example lg_file : log_of [lg_user; lg_exn] (log_file lg_rs).
Proof. exact (C86_file _ _ lg_proper lg_those). Qed.
Example lg_text :
  log_file lg_rs = utf8 "{""level"": ""U_ERROR"", ""msg"": ""caf\u00e9\nfailed"", ""file"": ""b.py"", ""func"": ""f"", ""line"": 3}" ++ [10]
    ++ utf8 "{""level"": ""ERROR"", ""msg"": ""exception"", ""file"": ""b.py"", ""func"": ""f"", ""line"": 4, ""extra"": {""row"": ""1:0""}, ""exception"": {""type"": ""RuntimeError"", ""msg"": ""no title"", ""frames"": [{""name"": ""parse"", ""file"": ""a.py"", ""lineno"": 12, ""line"": ""raise""}], ""cause"": {""type"": ""KeyError"", ""msg"": ""'x'"", ""frames"": []}}}" ++ [10].
Proof. vm_compute. reflexivity. Qed.
Example lg_console : console (fun _ => utf8 "trace") (Some (utf8 "no")) lg_rs = [8226; 32] ++ utf8 "caf" ++ [233; 10] ++ utf8 "failed" ++ [10].
Proof. vm_compute. reflexivity. Qed.
Example lg_asks : asks_debug (utf8 " Yes ") /\ ~ asks_debug (utf8 "0").
Proof. split; [apply debug_iff | rewrite <- debug_iff]; vm_compute; [reflexivity | discriminate]. Qed.
