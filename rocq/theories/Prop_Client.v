(** C72: what the upload page makes of the event stream. *)
From Coq Require Import NArith ZArith List Bool String Lia ZifyBool ZifyN ZifyNat.
From Verif Require Import PyStr PyStrFacts Xml Json Lint Document Output Cli SpecCli JsonText SpecJson JsonProofs
  Server SpecServer ServerProofs Prop_Server Client SpecClient.
Import ListNotations.
Local Open Scope string_scope.
Local Open Scope list_scope.
Local Open Scope N_scope.

(** ** The text of an event *)

Definition ascii (s : str) : Prop := Forall (fun c => 32 <= c <= 126) s.
Lemma ascii_utf8 s : forallb (fun c => (32 <=? c) && (c <=? 126)) (utf8 s) = true -> ascii (utf8 s).
Proof. intros H. apply Forall_forall. intros c I. rewrite forallb_forall in H. specialize (H c I). lia. Qed.
Lemma ascii_app a b : ascii a -> ascii b -> ascii (a ++ b).
Proof. intros. apply Forall_app. split; assumption. Qed.
Lemma hexadecimal_ascii h : hexadecimal h -> ascii h.
Proof. apply Forall_impl. cbn. lia. Qed.
Lemma ascii_scalar s : ascii s -> Forall scalar s.
Proof. apply Forall_impl. unfold scalar. cbn. lia. Qed.
Lemma phase_ascii p : ascii (phase_name p).
Proof. destruct p; apply ascii_utf8; reflexivity. Qed.

Lemma event_strings e : proper_event e -> strings_in (Forall scalar) (event_json e).
Proof.
  assert (U : forall s, forallb (fun c => (32 <=? c) && (c <=? 126)) (utf8 s) = true -> Forall scalar (utf8 s))
    by (intros; apply ascii_scalar, ascii_utf8; assumption).
  intros P. destruct e as [[[p i] n]|h]; cbn [event_json]; apply strings_obj; repeat (apply Forall_cons; [cbn [fst snd]|]);
    try apply Forall_nil; (split; [apply U; reflexivity|]); try (apply U; reflexivity); try exact Logic.I.
  - apply ascii_scalar, phase_ascii.
  - apply ascii_scalar, ascii_app; [apply ascii_utf8; reflexivity | apply hexadecimal_ascii, P].
Qed.
Lemma dumps_jvalue j : strings_in (Forall scalar) j -> jvalue (dumps j) j.
Proof.
  intros S. apply (dump_jvalue enc_char_ascii (fun _ => []) [32] (Forall scalar)).
  - intros s. apply enc_char_ascii_jchars.
  - intros _. constructor.
  - repeat constructor; cbn; auto.
  - exact S.
Qed.
Lemma loads_dumps j : strings_in (Forall scalar) j -> loads (dumps j) = Some j.
Proof.
  intros S. apply loads_ok. exists [], (dumps j), []. rewrite app_nil_r. split; [reflexivity|]. split; [constructor|]. split; [constructor|].
  apply dumps_jvalue, S.
Qed.

(** The strings of the events are written as they are. *)
Lemma enc_plain s : Forall (fun c => 32 <= c <= 126 /\ c <> 34 /\ c <> 92) s -> flat_map enc_char_ascii s = s.
Proof.
  induction 1 as [|c s H F IH]; [reflexivity|]. cbn [flat_map]. rewrite IH. unfold enc_char_ascii, short_escape.
  repeat match goal with |- context [c =? ?k] => destruct (N.eqb_spec c k); [lia|] end.
  replace ((32 <=? c) && (c <=? 126)) with true by lia. reflexivity.
Qed.
Definition event_text (e : sevent) : str :=
  match e with
  | Progress (p, i, total) =>
      utf8 "{""type"": ""progress-update"", ""phase"": """ ++ phase_name p ++ utf8 """, ""fig_ndx"": "
      ++ str_of_Z (Z.of_N i) ++ utf8 ", ""num_figs"": " ++ str_of_Z (Z.of_N total) ++ utf8 "}"
  | Completed h => utf8 "{""type"": ""report-completed"", ""url"": ""/report/" ++ h ++ utf8 """}"
  end.
Lemma event_text_ok e : proper_event e -> dumps (event_json e) = event_text e.
Proof.
  intros P. destruct e as [[[p i] n]|h].
  - unfold dumps, event_json. cbn [dump map join fst snd]. rewrite <- !app_assoc. destruct p; reflexivity.
  - unfold dumps, event_json, report_url. cbn [dump map join fst snd].
    unfold quoted at 4. rewrite flat_map_app, (enc_plain h).
    + repeat (rewrite <- !app_assoc; cbn [app]). reflexivity.
    + eapply Forall_impl; [|exact P]. cbn. lia.
Qed.

(** A colon follows a quote only. *)
Fixpoint quoted_colons (prev : N) (s : str) : bool :=
  match s with [] => true | c :: r => (negb (c =? 58) || (prev =? 34)) && quoted_colons c r end.
Lemma quoted_colons_app a : forall p b, quoted_colons p (a ++ b) = quoted_colons p a && quoted_colons (last a p) b.
Proof.
  induction a as [|c a IH]; intros p b; [reflexivity|]. cbn [app quoted_colons]. rewrite IH, andb_assoc.
  replace (last (c :: a) p) with (last a c); [reflexivity|]. destruct a as [|d a]; [reflexivity|].
  clear. change (last (c :: d :: a) p) with (last (d :: a) p). revert c d. induction a as [|e a IH]; intros c d; [reflexivity|]. apply IH.
Qed.
Lemma no_colons s : Forall (fun c => c <> 58) s -> forall p, quoted_colons p s = true.
Proof. induction 1 as [|c s H F IH]; intros p; [reflexivity|]. cbn [quoted_colons]. rewrite IH. destruct (N.eqb_spec c 58); [contradiction | reflexivity]. Qed.
Lemma int_chars z : Forall (fun c => c = 45 \/ 48 <= c <= 57) (str_of_Z z).
Proof.
  pose proof (str_of_Z_jint z) as J. inversion J as [s n N E|s n N E]; destruct N as (_ & D & _); [|constructor; [left; reflexivity|]];
    (eapply Forall_impl; [|exact D]; cbn; intros; right; assumption).
Qed.
Lemma event_colons e : proper_event e -> quoted_colons 32 (event_text e) = true.
Proof.
  assert (U : forall s p, quoted_colons p (utf8 s) = true -> forall b, quoted_colons p (utf8 s ++ b) = quoted_colons (last (utf8 s) p) b)
    by (intros s p H b; rewrite quoted_colons_app, H; reflexivity).
  assert (V : forall s p, Forall (fun c => c <> 58) s -> forall b, quoted_colons p (s ++ b) = quoted_colons (last s p) b)
    by (intros s p H b; rewrite quoted_colons_app, (no_colons _ H); reflexivity).
  assert (I : forall z, Forall (fun c => c <> 58) (str_of_Z z)) by (intros z; eapply Forall_impl; [|apply int_chars]; cbn; lia).
  intros P. destruct e as [[[p i] n]|h]; cbn [event_text].
  - rewrite U by reflexivity. rewrite V by (destruct p; repeat constructor; discriminate).
    rewrite U by reflexivity. rewrite (V _ _ (I _)). rewrite U by reflexivity. rewrite (V _ _ (I _)). reflexivity.
  - rewrite U by reflexivity. rewrite V; [reflexivity|]. eapply Forall_impl; [|exact P]. cbn. lia.
Qed.
Lemma event_ascii e : proper_event e -> ascii (event_text e).
Proof.
  assert (I : forall z, ascii (str_of_Z z)) by (intros z; eapply Forall_impl; [|apply int_chars]; cbn; lia).
  intros P. destruct e as [[[p i] n]|h]; cbn [event_text]; repeat (apply ascii_app; [first [apply I | apply phase_ascii | apply ascii_utf8; reflexivity | apply hexadecimal_ascii, P]|]);
    apply ascii_utf8; reflexivity.
Qed.

(** ** A line *)

Definition line (e : sevent) : str := utf8 "data: " ++ event_text e.
Lemma sse_line e : proper_event e -> sse e = line e ++ [10; 10].
Proof. intros P. unfold sse, line. rewrite (event_text_ok e P), app_assoc. reflexivity. Qed.
Lemma line_no_feed e : proper_event e -> ~ In 10 (line e).
Proof.
  intros P I. unfold line in I. apply in_app_or in I as [I|I]; [cbn in I; intuition discriminate|].
  pose proof (event_ascii e P) as A. unfold ascii in A. rewrite Forall_forall in A. specialize (A _ I). lia.
Qed.
Lemma whole_line e pg : proper_event e -> on_line pg (line e) = shown pg e.
Proof.
  intros P. unfold on_line. replace (startswith (utf8 "data: ") (line e)) with true by reflexivity.
  replace (skipn 6 (line e)) with (event_text e) by reflexivity.
  rewrite <- (event_text_ok e P), (loads_dumps _ (event_strings e P)).
  destruct e as [[[[] i] n]|h]; destruct pg; reflexivity.
Qed.
Lemma no_tag_inside a T r : quoted_colons 32 T = true -> utf8 "data: " ++ T = a ++ utf8 "data: " ++ r -> a = [].
Proof.
  intros C E. destruct a as [|x1 [|x2 [|x3 [|x4 [|x5 [|x6 a]]]]]]; [reflexivity|cbv in E; discriminate..|]. exfalso.
  assert (T = a ++ utf8 "data: " ++ r) as ->.
  { change (utf8 "data: ") with [100; 97; 116; 97; 58; 32] in *. cbn [app] in E. injection E. intros. assumption. }
  rewrite quoted_colons_app in C. apply andb_true_iff in C as [_ C]. change (utf8 "data: ") with [100; 97; 116; 97; 58; 32] in C.
  cbn [app quoted_colons] in C. change (58 =? 58) with true in C. change (97 =? 34) with false in C. cbn [negb orb andb] in C.
  rewrite !andb_false_r in C. discriminate.
Qed.
Lemma cut_line e a p b pg : proper_event e -> line e = a ++ p ++ b -> a <> [] \/ b <> [] -> on_line pg p = pg.
Proof.
  intros P E NE. unfold on_line. destruct (startswith (utf8 "data: ") p) eqn:S; [|reflexivity].
  apply startswith_inv in S. change (List.length (utf8 "data: ")) with 6%nat in S. set (p' := skipn 6 p) in *. clearbody p'. subst p.
  unfold line in E. rewrite <- app_assoc in E.
  pose proof (no_tag_inside a (event_text e) (p' ++ b) (event_colons e P) E) as ->. destruct NE as [NE|NE]; [congruence|].
  cbn [app] in E. apply app_inv_head in E.
  pose proof (dumps_jvalue _ (event_strings e P)) as J. rewrite (event_text_ok e P), E in J.
  assert (O : exists l, event_json e = JObj l) by (destruct e as [[[? ?] ?]|?]; eexists; reflexivity). destruct O as [l O]. rewrite O in J.
  rewrite (object_prefix _ _ _ J NE). reflexivity.
Qed.

(** ** Chunks *)

Lemma split_no_feed c : ~ In 10 c -> split_char 10 c = [c].
Proof.
  induction c as [|x c IH]; intros N; [reflexivity|]. cbn [split_char]. destruct (N.eqb_spec x 10) as [->|_]; [destruct N; left; reflexivity|].
  rewrite IH; [reflexivity|]. intros I. apply N. right. exact I.
Qed.
Lemma split_feed L c : ~ In 10 L -> split_char 10 (L ++ 10 :: c) = L :: split_char 10 c.
Proof.
  induction L as [|x L IH]; intros N; [reflexivity|]. cbn [app split_char]. destruct (N.eqb_spec x 10) as [->|_]; [destruct N; left; reflexivity|].
  rewrite IH; [reflexivity|]. intros I. apply N. right. exact I.
Qed.
Lemma cuts_above o cs : Forall (fun c => o <= c)%nat (cuts o cs).
Proof.
  revert o. induction cs as [|c r IH]; intros o; cbn [cuts]; constructor; [lia|]. eapply Forall_impl; [|apply IH]. cbn. lia.
Qed.
Definition inside (o n : nat) (at_ : list nat) : bool := existsb (fun c => Nat.ltb o c && Nat.ltb c (o + n)) at_.
Lemma inside_above o n at_ : Forall (fun c => o + n <= c)%nat at_ -> inside o n at_ = false.
Proof. induction 1 as [|c l H F IH]; [reflexivity|]. cbn [inside existsb]. fold (inside o n l). rewrite IH. lia. Qed.
Lemma inside_below o n at_ : Forall (fun c => c <= o)%nat at_ -> inside o n at_ = false.
Proof. induction 1 as [|c l H F IH]; [reflexivity|]. cbn [inside existsb]. fold (inside o n l). rewrite IH. lia. Qed.
Lemma inside_app o n a b : inside o n (a ++ b) = inside o n a || inside o n b.
Proof. apply existsb_app. Qed.
Lemma empties ps : List.concat ps = ([] : str) -> forall pg, fold_left on_line ps pg = pg.
Proof.
  induction ps as [|p ps IH]; intros E pg; [reflexivity|]. cbn [List.concat] in E. apply app_eq_nil in E as [-> E]. cbn [fold_left]. apply IH, E.
Qed.
Lemma in_concat_split {A} (p : list A) ps : In p ps -> exists a b, List.concat ps = a ++ p ++ b.
Proof.
  induction ps as [|q ps IH]; intros []; cbn [List.concat].
  - subst q. exists [], (List.concat ps). reflexivity.
  - destruct (IH H) as (a & b & ->). exists (q ++ a), b. rewrite app_assoc. reflexivity.
Qed.
Lemma app_compare {A} (a b c d : list A) : a ++ b = c ++ d ->
  (exists e, c = a ++ e /\ b = e ++ d) \/ (exists x e, a = c ++ x :: e /\ d = x :: e ++ b).
Proof.
  revert c. induction a as [|y a IH]; intros c E; [left; exists c; auto|].
  destruct c as [|z c]; [right; exists y, a; cbn in E; subst; auto|]. injection E as -> E.
  destruct (IH c E) as [(e & -> & ->)|(x & e & -> & ->)]; [left; exists e; auto | right; exists x, e; auto].
Qed.

(** The first line of the chunks: it comes in pieces, one if there is no cut inside. *)
Lemma peel cs : forall L o rest, ~ In 10 L -> List.concat cs = L ++ 10 :: rest ->
  exists ps cs' early,
    List.concat cs' = rest
    /\ (forall pg, fold_left on_chunk cs pg = fold_left on_chunk cs' (fold_left on_line ps pg))
    /\ cuts o cs = early ++ cuts (o + List.length L + 1) cs' /\ Forall (fun c => c <= o + List.length L)%nat early
    /\ List.concat ps = L
    /\ (inside o (List.length L) (cuts o cs) = false -> forall pg, fold_left on_line ps pg = on_line pg L)
    /\ (inside o (List.length L) (cuts o cs) = true ->
        Forall (fun p => p = [] \/ exists a b, L = a ++ p ++ b /\ (a <> [] \/ b <> [])) ps).
Proof.
  induction cs as [|c r IH]; intros L o rest N E; [destruct L; discriminate|]. cbn [List.concat] in E.
  destruct (app_compare c _ L _ E) as [(L' & -> & E')|(x & e & -> & E')].
  - assert (N1 : ~ In 10 c) by (intros I; apply N, in_or_app; left; exact I).
    assert (N2 : ~ In 10 L') by (intros I; apply N, in_or_app; right; exact I).
    destruct (IH L' (o + List.length c)%nat rest N2 E') as (ps & cs' & early & C & F & CU & EA & CP & A & B).
    exists (c :: ps), cs', ((o + List.length c)%nat :: early). split; [exact C|]. split.
    { intros pg. cbn [fold_left]. rewrite F. f_equal. f_equal. unfold on_chunk. rewrite (split_no_feed c N1). reflexivity. }
    cbn [cuts]. cbv zeta. rewrite app_length. split; [cbn [app]; f_equal; rewrite CU; f_equal; f_equal; lia|].
    split; [constructor; [lia|]; eapply Forall_impl; [|exact EA]; cbn; lia|].
    split; [cbn [List.concat]; rewrite CP; reflexivity|].
    destruct c as [|x c].
    + cbn [List.length app Nat.add] in *. rewrite Nat.add_0_r in *.
      replace (inside o (List.length L') (o :: cuts o r)) with (inside o (List.length L') (cuts o r)) by (cbn [inside existsb]; fold (inside o (List.length L') (cuts o r)); lia).
      split; [intros H pg; cbn [fold_left]; apply (A H) | intros H; constructor; [left; reflexivity | exact (B H)]].
    + destruct L' as [|y L'].
      * rewrite app_nil_r in *. rewrite inside_above.
        -- split; [|discriminate]. intros _ pg. cbn [fold_left]. apply empties, CP.
        -- constructor; [cbn [List.length]; lia|]. eapply Forall_impl; [|apply cuts_above]. cbn. lia.
      * match goal with |- (inside o ?n ?l = false -> _) /\ _ => assert (T : inside o n l = true) by (cbn [inside existsb List.length]; lia) end.
        rewrite T. split; [discriminate|]. intros _. constructor.
        -- right. exists [], (y :: L'). split; [reflexivity | right; discriminate].
        -- apply Forall_forall. intros p I. right. destruct (in_concat_split p ps I) as (a & b & Q). rewrite CP in Q.
           exists ((x :: c) ++ a), b. split; [rewrite Q, app_assoc; reflexivity | left; discriminate].
  - injection E' as E1 E2. subst x rest. exists [L], (e :: r), []. split; [reflexivity|]. split.
    { intros pg. cbn [fold_left]. f_equal. unfold on_chunk. rewrite (split_feed L e N). reflexivity. }
    cbn [cuts]. cbv zeta. rewrite app_length. cbn [List.length].
    split; [cbn [app]; f_equal; [lia | f_equal; lia]|]. split; [constructor|]. split; [apply app_nil_r|].
    rewrite inside_above; [split; [reflexivity | discriminate]|].
    constructor; [lia|]. eapply Forall_impl; [|apply cuts_above]. cbn. lia.
Qed.

Lemma chunks_events es : Forall proper_event es -> forall cs o early pg,
  List.concat cs = stream es -> Forall (fun c => c <= o)%nat early ->
  fold_left on_chunk cs pg = fold_left shown (intact (early ++ cuts o cs) o es) pg.
Proof.
  induction 1 as [|e es P F IH]; intros cs o early pg E EA.
  - cbn [intact fold_left]. revert pg. induction cs as [|c cs IH]; intros pg; [reflexivity|].
    cbn [List.concat stream flat_map] in E. apply app_eq_nil in E as [-> E]. cbn [fold_left]. rewrite (IH E). reflexivity.
  - unfold stream in E. cbn [flat_map] in E. fold (stream es) in E. rewrite (sse_line e P), <- app_assoc in E. cbn [app] in E.
    destruct (peel cs (line e) o _ (line_no_feed e P) E) as (ps & cs1 & e1 & C1 & F1 & CU1 & EA1 & CP & A & B).
    destruct (peel cs1 [] (o + List.length (line e) + 1) _ (fun x => x) C1) as (ps2 & cs2 & e2 & C2 & F2 & CU2 & EA2 & CP2 & _ & _).
    rewrite F1, F2, (empties ps2 CP2). cbn [intact]. cbv zeta. rewrite (sse_line e P), app_length. cbn [List.length].
    set (n := List.length (line e)) in *.
    replace (o + (n + 2) - 2)%nat with (o + n)%nat by lia. fold (inside o n (early ++ cuts o cs)).
    rewrite inside_app, (inside_below o n early EA). cbn [orb].
    assert (R : forall pg, fold_left on_chunk cs2 pg = fold_left shown (intact (early ++ cuts o cs) (o + (n + 2)) es) pg).
    { intros pg'. rewrite CU1, CU2. cbn [List.length] in CU2, EA2 |- *. rewrite !app_assoc.
      replace (o + n + 1 + 0 + 1)%nat with (o + (n + 2))%nat by lia. apply IH; [exact C2|].
      repeat (apply Forall_app; split).
      - eapply Forall_impl; [|exact EA]. cbn. lia.
      - eapply Forall_impl; [|exact EA1]. cbn. lia.
      - eapply Forall_impl; [|exact EA2]. cbn. lia. }
    destruct (inside o n (cuts o cs)) eqn:I.
    + rewrite R. f_equal. specialize (B eq_refl). clear - B P. induction B as [|p ps H B IH]; [reflexivity|]. cbn [fold_left].
      replace (on_line pg p) with pg; [exact IH|]. destruct H as [-> | (a & b & Q & NE)]; [reflexivity | symmetry; exact (cut_line e a p b pg P Q NE)].
    + cbn [fold_left]. rewrite R, (A eq_refl), (whole_line e pg P). reflexivity.
Qed.

(** ** C72 *)

(** However the stream is divided, the page shows exactly the events whose line is not cut. *)
Theorem C72_intact es cs : Forall proper_event es -> division cs es ->
  after_chunks cs = fold_left shown (intact (cuts 0 cs) 0 es) start_page.
Proof. intros P D. apply (chunks_events es P cs 0 [] start_page D). constructor. Qed.

(** All bytes of the stream are ASCII characters and line feeds: decoding them chunk by chunk is
    decoding them at once. *)
Theorem C72_ascii es : Forall proper_event es -> Forall (fun c => c = 10 \/ 32 <= c <= 126) (stream es).
Proof.
  induction 1 as [|e es P F IH]; [constructor|]. unfold stream. cbn [flat_map]. fold (stream es). apply Forall_app. split; [|exact IH].
  rewrite (sse_line e P). unfold line. rewrite <- app_assoc.
  assert (A : forall s, ascii s -> Forall (fun c => c = 10 \/ 32 <= c <= 126) s) by (intros s; apply Forall_impl; auto).
  repeat (apply Forall_app; split); [apply A, ascii_utf8; reflexivity | apply A, event_ascii, P | repeat constructor].
Qed.

Lemma intact_app at_ a : forall o b, intact at_ o (a ++ b) = intact at_ o a ++ intact at_ (o + List.length (stream a)) b.
Proof.
  induction a as [|e a IH]; intros o b; [cbn; rewrite Nat.add_0_r; reflexivity|]. cbn [app intact]. cbv zeta.
  unfold stream. cbn [flat_map]. fold (stream a). rewrite app_length, IH.
  replace (o + List.length (sse e) + List.length (stream a))%nat with (o + (List.length (sse e) + List.length (stream a)))%nat by lia.
  match goal with |- context [if ?b then _ else _] => destruct b end; reflexivity.
Qed.
Lemma intact_progress at_ rs : forall o, exists rs', intact at_ o (map Progress rs) = map Progress rs'.
Proof.
  induction rs as [|r rs IH]; intros o; [exists []; reflexivity|]. cbn [map intact]. cbv zeta.
  destruct (IH (o + List.length (sse (Progress r)))%nat) as [rs' E]. rewrite E.
  match goal with |- context [if ?b then _ else _] => destruct b end; [exists rs' | exists (r :: rs')]; reflexivity.
Qed.
Lemma progress_url rs : forall pg, pg_url (fold_left shown (map Progress rs) pg) = pg_url pg.
Proof.
  induction rs as [|[[[] i] n] rs IH]; intros pg; [reflexivity|..]; cbn [map fold_left]; rewrite IH; reflexivity.
Qed.

(** Once the stream has announced the report and has ended, the browser goes to the report,
    with both progress bars full; unless the announcement itself arrived in pieces: then it goes
    to "null". *)
Theorem C72_goes rs h cs : hexadecimal h -> division cs (map Progress rs ++ [Completed h]) ->
  (~ cut_at_end cs rs h ->
     goes_to cs false = Some (utf8 "/report/" ++ h)
     /\ pg_html (after_chunks cs) = (num 100, num 100) /\ pg_json (after_chunks cs) = (num 100, num 100)
     /\ pg_processing (after_chunks cs) = false)
  /\ (cut_at_end cs rs h -> goes_to cs false = Some (utf8 "null")).
Proof.
  intros H D.
  assert (P : Forall proper_event (map Progress rs ++ [Completed h])).
  { apply Forall_app. split; [apply Forall_map, Forall_forall; intros; exact Logic.I | repeat constructor; exact H]. }
  unfold goes_to. rewrite (C72_intact _ _ P D), intact_app. destruct (intact_progress (cuts 0 cs) rs 0) as [rs' ->].
  rewrite fold_left_app. cbn [intact Nat.add]. cbv zeta.
  set (o := List.length (stream (map Progress rs))). set (n := List.length (sse (Completed h))).
  assert (EQ : existsb (fun c => Nat.ltb o c && Nat.ltb c (o + n - 2)) (cuts 0 cs) = true <-> cut_at_end cs rs h).
  { rewrite existsb_exists. unfold cut_at_end, stream. rewrite flat_map_app, app_length. cbn [flat_map]. rewrite app_nil_r.
    fold (stream (map Progress rs)). fold o n. split; intros (c & I & X); exists c; (split; [exact I|]); lia. }
  destruct (existsb (fun c => Nat.ltb o c && Nat.ltb c (o + n - 2)) (cuts 0 cs)).
  - split; [intros X; exfalso; apply X, EQ; reflexivity|]. intros _. cbn [fold_left]. rewrite progress_url. reflexivity.
  - split; [|intros X; apply EQ in X; discriminate]. intros _. cbn [fold_left shown pg_url pg_html pg_json pg_processing]. auto.
Qed.

(** Together with the server: whenever completion has been announced on a stream, every division
    of that stream that leaves the announcement whole leads to a page the server has. *)
Theorem C72_server version md5 decode hist i h cs :
  (forall b, hexadecimal (md5 b)) -> announced version md5 decode hist i h ->
  exists rs, events_of i (snd (run_server version md5 decode init hist)) = map Progress rs ++ [Completed h]
    /\ (division cs (map Progress rs ++ [Completed h]) -> ~ cut_at_end cs rs h ->
        goes_to cs false = Some (utf8 "/report/" ++ h)
        /\ exists d c, get_report (state_after version md5 decode hist) h = Page (CJson d) c).
Proof.
  intros HX A. destruct (announced_upload _ _ _ _ _ _ A) as (u & d & stem & U & -> & SU & DO).
  destruct (C56_events version md5 decode hist i u (run_of version decode u) U ltac:(reflexivity)) as (last & E & CL).
  destruct CL as [[-> _]|[_ X]]; [|destruct X; eauto].
  set (k := asked i 0 hist) in *. set (rs := r_reports (run_of version decode u)) in *. set (h := md5 (u_bytes u)) in *.
  assert (IN : In (Completed h) (events_of i (snd (run_server version md5 decode init hist)))).
  { unfold events_of. apply in_map_iff. exists (i, Completed h). split; [reflexivity|]. apply filter_In. split; [exact A | apply Nat.eqb_refl]. }
  exists rs. split.
  - rewrite E in IN |- *. rewrite firstn_app in IN |- *. rewrite map_length in *.
    destruct (Nat.leb_spec k (List.length rs)) as [L|L].
    + exfalso. replace (k - List.length rs)%nat with 0%nat in IN by lia. cbn [firstn] in IN. rewrite app_nil_r, firstn_map in IN.
      apply in_map_iff in IN as (r & Q & _). discriminate.
    + rewrite firstn_all2 by (rewrite map_length; lia). f_equal. rewrite firstn_all2 by (cbn; lia). reflexivity.
  - intros D NC. destruct (C72_goes rs h cs (HX _) D) as [G _]. destruct (G NC) as (Q & _). split; [exact Q|].
    exact (proj2 (proj2 (C56_kept version md5 decode hist i h A))).
Qed.

(** ** Cases *)

Example two_events : list sevent := [Progress (PJson, 1, 2); Completed (utf8 "d41d8cd9")].
Example proper : Forall proper_event two_events.
Proof. repeat constructor; vm_compute; intuition discriminate. Qed.
(** The events have 81 and 63 bytes.  Cuts inside the first event, between the events and after
    the last line: the page shows the second event. *)
Example divided : list bytes :=
  [firstn 20 (stream two_events); firstn 61 (skipn 20 (stream two_events)); []; firstn 61 (skipn 81 (stream two_events));
   skipn 142 (stream two_events)].
Example divided_shown : division divided two_events /\ cuts 0 divided = [20; 81; 81; 142; 144]%nat
  /\ intact (cuts 0 divided) 0 two_events = [Completed (utf8 "d41d8cd9")]
  /\ goes_to divided false = Some (utf8 "/report/d41d8cd9").
Proof. vm_compute. auto. Qed.
(** So the claim that the browser always reaches an announced report is false: here the last
    event arrives in two pieces. *)
Theorem C72_always_refuted : exists cs h, hexadecimal h /\ division cs [Progress (PJson, 1, 2); Completed h]
  /\ goes_to cs false = Some (utf8 "null").
Proof.
  exists [firstn 120 (stream two_events); skipn 120 (stream two_events)], (utf8 "d41d8cd9").
  split; [repeat constructor; vm_compute; intuition discriminate|]. vm_compute. auto.
Qed.
(** A history for C72_server: the uploads of [x_hist], with digests that are hexadecimal. *)
Definition hex_md5 (b : bytes) : str := map (fun c => 97 + c mod 6) b.
Example hex_md5_ok b : hexadecimal (hex_md5 b).
Proof. apply Forall_map, Forall_forall. intros c _. pose proof (N.mod_lt c 6). lia. Qed.
Example x_announced : announced (utf8 "1") hex_md5 x_decode x_hist 0 (hex_md5 [1]).
Proof. vm_compute. tauto. Qed.

Print Assumptions C72_intact.
Print Assumptions C72_ascii.
Print Assumptions C72_goes.
Print Assumptions C72_server.
Print Assumptions C72_always_refuted.
