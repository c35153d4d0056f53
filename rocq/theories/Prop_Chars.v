(** C92: the characters of the JSON file come from the document; which encodings can write it. *)
From Coq Require Import NArith ZArith List Bool String Lia ZifyBool ZifyN.
From Verif Require Import PyStr PyTables PyStrFacts Xml Json Lint RowIter Helpers Extract Document Output JsonText SpecChars CharProofs CharFlow.
Import ListNotations.
Local Open Scope list_scope.
Local Open Scope N_scope.

Section Text.
Variable ok : N -> Prop.
Hypothesis CS : charset ok.
Notation T := (Forall ok).
Notation jok := (jok ok).
Notation members_ok := (members_ok ok).
Ltac asc := apply (T_ascii ok CS); vm_compute; reflexivity.

Lemma hex_ok n : n < 16 -> ok (hex_digit n).
Proof. intros H. apply (ok_ascii ok CS). unfold hex_digit. destruct (n <? 10) eqn:E; lia. Qed.
Lemma enc_ok c : ok c -> T (enc_char c).
Proof.
  intros C. unfold enc_char. destruct (short_escape c) as [e|] eqn:E.
  - constructor; [apply (ok_ascii ok CS); lia|]. constructor; [|constructor]. apply (ok_ascii ok CS). unfold short_escape in E.
    repeat (match type of E with (if ?b then _ else _) = _ => destruct b end; [injection E as <-; lia|]). discriminate.
  - destruct (c <? 32) eqn:L; [|constructor; [exact C | constructor]]. unfold u_escape, hex4.
    assert (H : c < 65536) by lia.
    constructor; [apply (ok_ascii ok CS); lia|]. constructor; [apply (ok_ascii ok CS); lia|].
    constructor; [apply hex_ok; apply N.div_lt_upper_bound; lia|].
    repeat (constructor; [apply hex_ok; apply N.mod_lt; lia|]). constructor.
Qed.
Lemma quoted_ok s : T s -> T (quoted enc_char s).
Proof.
  intros S. unfold quoted. constructor; [apply (ok_ascii ok CS); lia|]. apply T_app; [apply T_flat; [apply enc_ok | exact S] | asc].
Qed.
Lemma nl_ok n : T (newline_indent n).
Proof.
  unfold newline_indent. constructor; [apply (ok_ascii ok CS); lia|]. apply Forall_forall. intros c I. apply repeat_spec in I. subst c. apply (ok_ascii ok CS). lia.
Qed.
Lemma dump_ok : forall j, jok j -> forall level, T (dump enc_char newline_indent [44] level j).
Proof.
  fix IH 2. intros j [|b|z|s S|l L|l L] level.
  - cbn [dump]. asc.
  - cbn [dump]. destruct b; asc.
  - cbn [dump]. apply (T_Z ok CS).
  - cbn [dump]. apply quoted_ok, S.
  - assert (M : Forall T (map (dump enc_char newline_indent [44] (S level)) l)).
    { induction L as [|q l J L IL]; [constructor|]. cbn [map]. constructor; [apply IH, J | exact IL]. }
    destruct l as [|q l]; [cbn [dump]; asc|].
    change (T ([91] ++ newline_indent (S level) ++ join ([44] ++ newline_indent (S level)) (map (dump enc_char newline_indent [44] (S level)) (q :: l)) ++ newline_indent level ++ [93])).
    apply T_app; [asc|]. apply T_app; [apply nl_ok|]. apply T_app; [apply T_join; [apply T_app; [asc | apply nl_ok] | exact M]|]. apply T_app; [apply nl_ok | asc].
  - assert (M : Forall T (map (fun p => quoted enc_char (fst p) ++ utf8 ": " ++ dump enc_char newline_indent [44] (S level) (snd p)) l)).
    { induction L as [|[k q] l [K J] L IL]; [constructor|]. cbn [map fst snd]. constructor; [|exact IL].
      apply T_app; [apply quoted_ok, K|]. apply T_app; [asc | apply IH, J]. }
    destruct l as [|q l]; [cbn [dump]; asc|].
    change (T ([123] ++ newline_indent (S level) ++ join ([44] ++ newline_indent (S level))
      (map (fun p => quoted enc_char (fst p) ++ utf8 ": " ++ dump enc_char newline_indent [44] (S level) (snd p)) (q :: l)) ++ newline_indent level ++ [125])).
    apply T_app; [asc|]. apply T_app; [apply nl_ok|]. apply T_app; [apply T_join; [apply T_app; [asc | apply nl_ok] | exact M]|]. apply T_app; [apply nl_ok | asc].
Qed.

Definition model_ok (d : model) : Prop := members_ok (mo_meta d) /\ Forall jok (mo_entities d).
Lemma text_ok d : model_ok d -> T (file_text d).
Proof.
  intros [A B]. apply dump_ok. constructor. apply member_ok; [exact CS | vm_compute; reflexivity | constructor; exact A|].
  apply member_ok; [exact CS | vm_compute; reflexivity | constructor; exact B | constructor].
Qed.
Lemma set_ok k j l : T k -> jok j -> members_ok l -> members_ok (dict_set k j l).
Proof.
  intros K J. induction 1 as [|[k' j'] l [K' J'] L IH]; cbn [dict_set]; [constructor; [split; assumption | constructor]|].
  destruct (seqb k k'); constructor; try assumption; split; assumption.
Qed.
Lemma meta_ok k j d : forallb (fun c => c <? 128) k = true -> jok j -> model_ok d -> model_ok (write_meta k j d).
Proof. intros K J [A B]. split; [apply set_ok; [apply (T_ascii ok CS), K | exact J | exact A] | exact B]. Qed.
Lemma events_ok progress total evs : Forall (eok ok) evs -> forall i w d rs d' o, model_ok d ->
  write_events progress total i evs w d = (rs, d', o) -> model_ok d'.
Proof.
  induction 1 as [|e evs E H IH]; intros i w d rs d' o D; cbn [write_events]; [intros [= <- <- <-]; exact D|].
  destruct e as [l|e]; [apply IH, D|].
  assert (D1 : model_ok (write_entity (entity_json e) d)).
  { split; [apply D|]. apply Forall_app. split; [apply D | constructor; [apply entity_jok; assumption | constructor]]. }
  destruct progress; [|apply IH, D1]. destruct (take_one w) as [w'|]; [|intros [= <- <- <-]; exact D].
  destruct (write_events true total (N.succ i) evs w' _) as [[rs' d1] o'] eqn:E1. intros [= <- <- <-]. exact (IH _ _ _ _ _ _ D1 E1).
Qed.

(** The classes of the quirks give ASCII labels and figure ids. *)
Definition small (s : str) : bool := forallb (fun c => c <? 128) s.
Definition small_parser (q : quirks) : bool :=
  forallb (fun p => small (snd p)) (fst q)
  && forallb (fun p => match ec_handler (snd p) with HSplit _ fig => small fig | _ => true end) (snd q).
Lemma small_quirks : forallb (fun p => small_parser (snd p)) QUIRKS_MAP = true.
Proof. vm_compute. reflexivity. Qed.
Lemma parser_ok skip key rev : parser_fine ok (get_parser skip key rev).
Proof.
  unfold get_parser. destruct (find _ QUIRKS_MAP) as [[k [lo fo]]|] eqn:E.
  - apply find_some in E as [E _]. pose proof small_quirks as Q. rewrite forallb_forall in Q. specialize (Q _ E). cbn [snd] in Q.
    apply andb_true_iff in Q as [A B]. cbn [fst snd] in A, B. rewrite forallb_forall in A, B. split; cbn [p_label_overrides p_fig_overrides].
    + intros k' l I. apply (T_ascii ok CS), (A (k', l) I).
    + intros fig c I p f HC. specialize (B (fig, c) I). cbn [snd] in B. rewrite HC in B. apply (T_ascii ok CS), B.
  - split; cbn [p_label_overrides p_fig_overrides]; intros ? ? [].
Qed.

Lemma text_good e : (forall c, text_has c e -> ok c) -> good ok e.
Proof.
  revert e. fix IH 1. intros [t a x ks] H. apply good_iff. split.
  - apply Forall_forall. intros c I. apply H, th_text, I.
  - assert (HK : forall k s, In (k, s) ks -> (forall c, In c s -> ok c) /\ (forall c, text_has c k -> ok c)).
    { intros k s I. split; intros c C; apply H; [exact (th_tail c t a x ks k s I C) | exact (th_kid c t a x ks k s I C)]. }
    clear H. induction ks as [|[k s] ks IK]; [constructor|]. constructor.
    + destruct (HK k s (or_introl eq_refl)) as [A B]. split; [apply IH, B | apply Forall_forall, A].
    + apply IK. intros k' s' I. apply HK. right. exact I.
Qed.
Lemma kid_in t e k : In k (children t e) -> exists s, In (k, s) (e_kids e).
Proof. intros I. apply in_map_iff in I as [[k' s] [<- I]]. apply filter_In in I as [I _]. exists s. exact I. Qed.
Lemma attrs_ok a e v : (forall c, attr_has c e -> ok c) -> In v (meta_attrs a e) -> T v.
Proof.
  intros H I. unfold meta_attrs in I. apply in_flat_map in I as [h [I1 I]]. apply in_flat_map in I as [m [I2 I]].
  unfold attr in I. destruct (find _ (e_attrs m)) as [[n v']|] eqn:E; [|destruct I]. destruct I as [<-|[]]. cbn [snd]. apply find_some in E as [E _].
  apply kid_in in I1 as [s1 I1]. apply kid_in in I2 as [s2 I2]. apply Forall_forall. intros c C. apply H.
  destruct e as [t a0 x ks], h as [t' a' x' ks'], m as [t2 a2 x2 ks2]. cbn [e_kids e_attrs] in *.
  apply (ah_kid c t a0 x ks _ s1 I1), (ah_kid c t' a' x' ks' _ s2 I2), (ah_here c t2 a2 x2 ks2 n v' E C).
Qed.

Lemma stage_ok version args progress w root rs d e : T version ->
  (forall c, text_has c root \/ attr_has c root -> ok c) ->
  json_stage version args progress w (Tree root) = (rs, d, e) -> model_ok d.
Proof.
  intros V H. unfold json_stage, open_doc.
  destruct (meta_attrs (utf8 "data-spec") root) as [|key ks] eqn:EK; [intros [= <- <- <-]; split; constructor|].
  destruct (meta_attrs (utf8 "data-revision") root) as [|rev rvs] eqn:ER; [intros [= <- <- <-]; split; constructor|].
  assert (TK : T key) by (apply (attrs_ok (utf8 "data-spec") root); [intros c C; apply H; right; exact C | rewrite EK; left; reflexivity]).
  assert (TR : T rev) by (apply (attrs_ok (utf8 "data-revision") root); [intros c C; apply H; right; exact C | rewrite ER; left; reflexivity]).
  cbv zeta. destruct (parse_doc (get_parser (a_skip args) (lower key) (lower rev)) root) as [r evs] eqn:EP.
  assert (EV : Forall (eok ok) evs).
  { refine (doc_ok ok CS _ (parser_ok _ _ _) root r evs _ EP). apply text_good. intros c C. apply H. left. exact C. }
  match goal with |- context [write_events ?p ?t ?i ?ev ?w ?d0] => destruct (write_events p t i ev w d0) as [[rs' d1] o] eqn:EW end.
  assert (D1 : model_ok d1).
  { refine (events_ok _ _ _ EV _ _ _ _ _ _ _ EW). apply meta_ok; [vm_compute; reflexivity | constructor; exact V|].
    apply meta_ok; [vm_compute; reflexivity | constructor|]. apply meta_ok; [vm_compute; reflexivity | constructor; apply T_lower; assumption|].
    apply meta_ok; [vm_compute; reflexivity | constructor; apply T_lower; assumption|]. split; constructor. }
  destruct o; [|intros [= <- <- <-]; exact D1]. destruct r; intros [= <- <- <-]; try exact D1.
  apply meta_ok; [vm_compute; reflexivity | | exact D1]. constructor. unfold reported_lint. rewrite Forall_forall. intros j I.
  apply in_map_iff in I as [l [<- I]]. apply filter_In in I as [I _]. unfold lints_of in I. apply in_flat_map in I as [ev [I J]].
  destruct ev as [l'|]; [|destruct J]. destruct J as [<-|[]]. apply lint_jok; [exact CS|]. rewrite Forall_forall in EV. exact (EV _ I).
Qed.
Lemma file_ok version args progress w inp d : T version -> (forall c, given inp c -> ok c) ->
  r_file (parse_spec version args progress w inp) = Some d -> T (file_text d).
Proof.
  intros V H E. apply text_ok.
  assert (ST : forall s w' rs d0 e, (forall root, s = Tree root -> document_of inp root) -> json_stage version args progress w' s = (rs, d0, e) -> model_ok d0).
  { intros [|root] w' rs d0 e HD ES.
    - unfold json_stage in ES. cbn [open_doc] in ES. injection ES as <- <- <-. split; constructor.
    - refine (stage_ok version args progress w' root rs d0 e V _ ES). intros c C. apply H. exists root. split; [apply HD; reflexivity | exact C]. }
  unfold parse_spec in E.
  assert (G : forall r, r_file r = Some d ->
    r = match inp with
        | Html s => let '(rs, d, e) := json_stage version args progress w s in mkRun rs (Some d) e
        | Docx total is raised s =>
          let '(rs, o) := if progress then html_reports total is w else ([], Some w) in
          match o with
          | None => mkRun rs None (Failed PClosed)
          | Some w' => if raised then mkRun rs None (Failed PConvert)
              else let '(rs', d, e) := json_stage version args progress w' s in mkRun (rs ++ rs') (Some d) e
          end
        end -> model_ok d).
  { intros r R ->. destruct inp as [s|total is raised s].
    - destruct (json_stage version args progress w s) as [[rs d0] e] eqn:ES. cbn [r_file] in R. injection R as ->.
      refine (ST s w rs d e _ ES). intros root ->. left. reflexivity.
    - destruct (if progress then html_reports total is w else ([], Some w)) as [rs [w'|]]; [|discriminate R].
      destruct raised; [discriminate R|]. destruct (json_stage version args progress w' s) as [[rs' d0] e] eqn:ES. cbn [r_file] in R. injection R as ->.
      refine (ST s w' rs' d e _ ES). intros root ->. right. exists total, is, false. reflexivity. }
  destruct w as [[|p]|]; [discriminate E | exact (G _ E eq_refl) | exact (G _ E eq_refl)].
Qed.
End Text.

(** C92: every character of the JSON file a run writes is an ASCII character, a character of the
    version, one of the texts or attribute values of the document, or such a one with its case
    changed. *)
Theorem C92_origin : forall version args progress w inp d,
  r_file (parse_spec version args progress w inp) = Some d ->
  Forall (derived version inp) (file_text d).
Proof.
  intros version args progress w inp d E. refine (file_ok (derived version inp) _ version args progress w inp d _ _ E).
  - split; [intros c C; apply d_ascii; exact C|]. split; intros c c' C I; [exact (d_upper _ _ c c' C I) | exact (d_lower _ _ c c' C I)].
  - apply Forall_forall. intros c I. apply d_version, I.
  - intros c C. apply d_given, C.
Qed.

(** A character set with ASCII that is closed under change of case and has the characters of the
    document has those of the file. *)
Theorem C92_closed : forall ok version args progress w inp d,
  charset ok -> Forall ok version -> (forall c, given inp c -> ok c) ->
  r_file (parse_spec version args progress w inp) = Some d ->
  Forall ok (file_text d).
Proof. intros ok version args progress w inp d C V H E. exact (file_ok ok C version args progress w inp d V H E). Qed.

Lemma ascii_charset : charset ascii.
Proof.
  unfold ascii. split; [trivial|]. split; intros c d C; unfold upper_char, lower_char; (destruct (c <? 128) eqn:E; [|lia]); intros [<-|[]];
    match goal with |- (if ?b then _ else _) < _ => destruct b eqn:B end; lia.
Qed.
Definition scalarb (c : N) : bool := (c <? 1114112) && negb ((55296 <=? c) && (c <=? 57343)).
Lemma scalarb_iff c : scalarb c = true <-> unicode c.
Proof. unfold scalarb, unicode. lia. Qed.
Lemma tables_scalar : forallb (fun p => forallb scalarb (snd p)) upper_table && forallb (fun p => forallb scalarb (snd p)) lower_table = true.
Proof. vm_compute. reflexivity. Qed.
Lemma table_scalar l c s d : forallb (fun p => forallb scalarb (snd p)) l = true -> assocN c l = Some s -> In d s -> unicode d.
Proof.
  intros H. unfold assocN. destruct (find _ l) as [[k s']|] eqn:E; [|discriminate]. intros [= <-] I. apply find_some in E as [E _].
  rewrite forallb_forall in H. specialize (H _ E). rewrite forallb_forall in H. apply scalarb_iff, H, I.
Qed.
Lemma unicode_charset : charset unicode.
Proof.
  pose proof tables_scalar as TS. apply andb_true_iff in TS as [TU TL].
  split; [unfold unicode; lia|]. split; intros c d C; unfold upper_char, lower_char; destruct (c <? 128) eqn:E.
  - intros [<-|[]]. destruct (_ && _); unfold unicode in *; lia.
  - destruct (assocN c upper_table) as [s|] eqn:A; [apply (table_scalar _ _ _ _ TU A) | intros [<-|[]]; exact C].
  - intros [<-|[]]. destruct (_ && _) eqn:B; unfold unicode in *; lia.
  - destruct (assocN c lower_table) as [s|] eqn:A; [apply (table_scalar _ _ _ _ TL A) | intros [<-|[]]; exact C].
Qed.

(** A document of ASCII characters gives a file of ASCII characters. *)
Theorem C92_ascii : forall version args progress w inp d,
  Forall ascii version -> (forall c, given inp c -> ascii c) ->
  r_file (parse_spec version args progress w inp) = Some d ->
  Forall ascii (file_text d).
Proof. intros version args progress w inp d. apply C92_closed, ascii_charset. Qed.

(** A document without surrogates gives a file that UTF-8 can encode. *)
Theorem C92_utf8 : forall version args progress w inp d,
  Forall unicode version -> (forall c, given inp c -> unicode c) ->
  r_file (parse_spec version args progress w inp) = Some d ->
  Forall unicode (file_text d).
Proof. intros version args progress w inp d. apply C92_closed, unicode_charset. Qed.

(** ** A document *)

Definition tx (t s : string) : kid := (Elem (utf8 t) [] (utf8 s) [], []).
Definition node (t : string) (ks : list kid) : kid := (Elem (utf8 t) [] [] ks, []).
Definition cellp (s : string) : kid := node "td" [tx "p" s].
(** A document with one figure, whose only row has the given label. *)
Definition page (label : string) : elem :=
  Elem (utf8 "html") [] []
    [node "head" [(Elem (utf8 "meta") [(utf8 "data-spec", utf8 "Spec"); (utf8 "data-revision", utf8 "1.0")] [] [], [])];
     node "body" [node "table"
       [node "tr" [node "td" [tx "p" "Figure 7: Units"]];
        node "tr" [cellp "Value"; cellp "Definition"];
        node "tr" [cellp "1h"; cellp label]]]].
Definition page_run (label : string) : run :=
  parse_spec (utf8 "1.0") (mkArgs false []) false None (Html (Tree (page label))).
Definition page_text (label : string) : str :=
  match r_file (page_run label) with Some d => file_text d | None => [] end.

Fixpoint all_chars (p : N -> bool) (e : elem) : bool :=
  match e with
  | Elem _ a x ks =>
      forallb (fun q => forallb p (snd q)) a && forallb p x && forallb (fun k => all_chars p (fst k) && forallb p (snd k)) ks
  end.
Lemma all_chars_given p e : all_chars p e = true -> forall c, given (Html (Tree e)) c -> p c = true.
Proof.
  intros H c [root [[[= <-] | (n & is & r & [=])] HC]].
  assert (K : forall t a x ks, all_chars p (Elem t a x ks) = true ->
    (forall n v, In (n, v) a -> forall c, In c v -> p c = true) /\ (forall c, In c x -> p c = true)
    /\ (forall k s, In (k, s) ks -> all_chars p k = true /\ forall c, In c s -> p c = true)).
  { intros t a x ks E. cbn [all_chars] in E. rewrite !andb_true_iff, !forallb_forall in E. destruct E as [[A B] C]. split; [|split; [exact B|]].
    - intros n v I. specialize (A (n, v) I). rewrite forallb_forall in A. exact A.
    - intros k s I. specialize (C (k, s) I). cbn [fst snd] in C. rewrite andb_true_iff, forallb_forall in C. exact C. }
  destruct HC as [HC|HC].
  - induction HC as [t a x ks I|t a x ks k s I J|t a x ks k s I J IH]; destruct (K _ _ _ _ H) as (A & B & C).
    + exact (B c I).
    + exact (proj2 (C k s I) c J).
    + apply IH, (proj1 (C k s I)).
  - induction HC as [t a x ks n v I J|t a x ks k s I J IH]; destruct (K _ _ _ _ H) as (A & B & C).
    + exact (A n v I c J).
    + apply IH, (proj1 (C k s I)).
Qed.

(** Not every encoding does: a document of Latin-1 characters gives a file that Latin-1 cannot
    encode, since the capital of the micro sign is a Greek letter. *)
Theorem C92_latin1_refuted :
  (forall c, given (Html (Tree (page "µm: micrometers"))) c -> latin1 c)
  /\ r_end (page_run "µm: micrometers") = Finished
  /\ ~ Forall latin1 (page_text "µm: micrometers").
Proof.
  split; [|split].
  - intros c C. unfold latin1. apply N.ltb_lt. revert c C. apply (all_chars_given (fun c => c <? 256)). vm_compute. reflexivity.
  - vm_compute. reflexivity.
  - intros H. assert (E : forallb (fun c => c <? 256) (page_text "µm: micrometers") = true).
    { apply forallb_forall. rewrite Forall_forall in H. intros c I. apply N.ltb_lt, H, I. }
    vm_compute in E. discriminate E.
Qed.

(** The same document meets the premises of [C92_utf8]; with another label, those of [C92_ascii].
    The label is in the file. *)
Example C92_sample :
  (forall c, given (Html (Tree (page "µm: micrometers"))) c -> unicode c)
  /\ (forall c, given (Html (Tree (page "um: micrometers"))) c -> ascii c)
  /\ contains (utf8 """label"": ""ΜM""") (page_text "µm: micrometers") = true
  /\ contains (utf8 """label"": ""UM""") (page_text "um: micrometers") = true.
Proof.
  split; [|split; [|split; vm_compute; reflexivity]].
  - intros c C. apply scalarb_iff. revert c C. apply (all_chars_given scalarb). vm_compute. reflexivity.
  - intros c C. unfold ascii. apply N.ltb_lt. revert c C. apply (all_chars_given (fun c => c <? 128)). vm_compute. reflexivity.
Qed.
Print Assumptions C92_origin.
Print Assumptions C92_closed.
Print Assumptions C92_ascii.
Print Assumptions C92_utf8.
Print Assumptions C92_latin1_refuted.
Print Assumptions C92_sample.
