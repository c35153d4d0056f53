(** C71: the JSON file is JSON and stands for the document. *)
From Coq Require Import NArith ZArith List Bool String Lia ZifyBool ZifyN ZifyNat.
From Verif Require Import PyTables PyStr PyStrFacts Xml Json Lint RowIter Helpers Extract Document Output
  MFacts SpecText SpecFields SpecHeader SpecRows SpecTable SpecDoc SpecRun SpecOutput
  DocProofs DocFlow DocRuns Prop_Table Prop_Doc Prop_Output JsonText SpecJson JsonProofs.
Import ListNotations.
Local Open Scope string_scope.
Local Open Scope list_scope.
Local Open Scope N_scope.

Lemma strings_any j : strings_in (fun _ => True) j.
Proof.
  induction j as [|b|z|s|l IH|l IH] using json_rec'; try exact Logic.I.
  - apply strings_list, IH.
  - apply strings_obj. eapply Forall_impl; [|exact IH]. auto.
Qed.
Lemma newline_ws n : ws (newline_indent n).
Proof. constructor; [cbn; tauto|]. apply Forall_forall. intros c H. apply repeat_spec in H. subst. cbn. tauto. Qed.
Lemma pretty_jvalue j : jvalue (dump_pretty j) j.
Proof.
  apply (dump_jvalue enc_char newline_indent [] (fun _ => True)).
  - intros s _. apply enc_char_jchars.
  - apply newline_ws.
  - constructor.
  - apply strings_any.
Qed.

(** Whatever the document, the text of the file is a JSON text; it stands for the document and
    for no other value, and a reader gets it back. *)
Theorem C71_text d :
  json_text (file_text d) (model_json d)
  /\ (forall j, json_text (file_text d) j -> j = model_json d)
  /\ loads (file_text d) = Some (model_json d).
Proof.
  assert (J : json_text (file_text d) (model_json d)).
  { exists [], (file_text d), []. rewrite app_nil_r. split; [reflexivity|]. split; [constructor|]. split; [constructor|]. apply pretty_jvalue. }
  split; [exact J|]. split; [intros j H; exact (json_text_unique _ _ _ H J) | apply loads_ok, J].
Qed.

(** ** No repeated keys *)

Lemma distinct_list l : distinct_keys (JList l) <-> Forall distinct_keys l.
Proof. split; [induction l; intros H; constructor; [apply H | apply IHl, H] | induction 1; cbn; auto]. Qed.
Lemma distinct_obj l : distinct_keys (JObj l) <-> NoDup (map fst l) /\ Forall (fun p => distinct_keys (snd p)) l.
Proof.
  cbn [distinct_keys]. split; intros [H1 H2]; (split; [exact H1|]); clear H1.
  - induction l; constructor; [apply H2 | apply IHl, H2].
  - induction H2; cbn; auto.
Qed.
(** Decide that concrete keys differ. *)
Fixpoint nodupb (l : list str) : bool := match l with [] => true | a :: r => negb (smem a r) && nodupb r end.
Lemma nodupb_ok l : nodupb l = true -> NoDup l.
Proof.
  induction l as [|a l IH]; cbn [nodupb]; [constructor|]. intros H. apply andb_true_iff in H as [H1 H2]. constructor; [|apply IH, H2].
  intros I. apply negb_true_iff in H1. unfold smem in H1. assert (existsb (seqb a) l = true) by (apply existsb_exists; exists a; split; [exact I | apply seqb_refl]). congruence.
Qed.
Ltac keys := apply nodupb_ok; vm_compute; reflexivity.

Lemma distinct_sfield f : distinct_keys (sfield_json f).
Proof.
  destruct f as [l r b]. unfold sfield_json. apply distinct_obj. split.
  - destruct b; keys.
  - repeat constructor; [destruct r; [apply distinct_obj; split; [keys | repeat constructor].. | exact Logic.I]|].
    destruct b; repeat constructor.
Qed.
Lemma distinct_vfield f : distinct_keys (vfield_json f).
Proof. destruct f as [v l [b|]]; (apply distinct_obj; split; [keys | repeat constructor]). Qed.
Lemma distinct_entity e : distinct_keys (entity_json e).
Proof.
  destruct e as [[t fig p] [k fs|fs]]; unfold entity_json, meta_json; cbn [en_body en_meta m_title m_fig m_parent]; apply distinct_obj; split.
  - destruct t, p; keys.
  - destruct t, p; repeat constructor; cbn [snd]; apply distinct_list, Forall_map, Forall_forall; intros; apply distinct_sfield.
  - destruct t, p; keys.
  - destruct t, p; repeat constructor; cbn [snd]; apply distinct_list, Forall_map, Forall_forall; intros; apply distinct_vfield.
Qed.
Lemma distinct_ctx c ctx : code_context c ctx -> distinct_keys (JObj ctx).
Proof.
  assert (N : distinct_keys (JObj [])) by (apply distinct_obj; split; constructor).
  assert (O : forall k v, distinct_keys v -> distinct_keys (JObj [(k, v)])).
  { intros k v H. apply distinct_obj. split; [repeat constructor; intros [] | repeat constructor; exact H]. }
  destruct c; cbn [code_context]; try (intros ->; exact N).
  - intros [-> | [s ->]]; [exact N | apply O; exact Logic.I].
  - intros (a & b & ->). apply distinct_obj. split; [keys | repeat constructor].
  - intros (l & ->). apply O. apply distinct_list, Forall_map, Forall_forall. intros; exact Logic.I.
  - intros (s & ->). apply O; exact Logic.I.
  - intros (s & ->). apply O; exact Logic.I.
  - intros [-> | [s ->]]; [exact N | apply O; exact Logic.I].
Qed.
Lemma distinct_lint l : wellformed_lint l -> distinct_keys (lint_json l).
Proof.
  intros (_ & _ & _ & C & _). unfold lint_json. apply distinct_obj. split.
  - destruct (l_row l); keys.
  - apply distinct_ctx in C. destruct (l_row l); repeat (apply Forall_cons; [first [exact C | exact Logic.I]|]); apply Forall_nil.
Qed.

Lemma dict_set_in k (v : json) l a : In a (map fst (dict_set k v l)) -> a = k \/ In a (map fst l).
Proof.
  induction l as [|[k' v'] l IH]; cbn [dict_set map fst In]; [intros [<-|[]]; auto|].
  destruct (seqb_spec k k'); cbn [map fst In]; [intros [<-|H]; auto|]. intros [<-|H]; [auto|]. apply IH in H. tauto.
Qed.
Lemma distinct_set k v l : NoDup (map fst l) -> Forall (fun p => distinct_keys (snd p)) l -> distinct_keys v ->
  NoDup (map fst (dict_set k v l)) /\ Forall (fun p => distinct_keys (snd p)) (dict_set k v l).
Proof.
  intros N F D. split.
  - clear F. induction l as [|[k' v'] l IH]; cbn [dict_set]; [repeat constructor; intros []|].
    cbn [map fst] in N. inversion N as [|? ? N1 N2]; subst. destruct (seqb_spec k k') as [<-|NE]; cbn [map fst]; constructor; try assumption.
    + intros H. apply dict_set_in in H as [->|H]; [congruence | contradiction].
    + apply IH, N2.
  - clear N. induction F as [|[k' v'] l H F IH]; cbn [dict_set]; [repeat constructor; exact D|].
    destruct (seqb k k'); constructor; assumption.
Qed.

Definition good_model (d : model) : Prop :=
  NoDup (map fst (mo_meta d)) /\ Forall (fun p => distinct_keys (snd p)) (mo_meta d) /\ Forall distinct_keys (mo_entities d).
Lemma good_json d : good_model d -> distinct_keys (model_json d).
Proof.
  intros (A & B & C). unfold model_json. apply distinct_obj. split; [keys|].
  apply Forall_cons; [apply distinct_obj; split; assumption|]. apply Forall_cons; [apply distinct_list, C | apply Forall_nil].
Qed.
Lemma good_empty : good_model empty_model. Proof. repeat split; constructor. Qed.
Lemma good_meta k v d : good_model d -> distinct_keys v -> good_model (write_meta k v d).
Proof. intros (A & B & C) D. destruct (distinct_set k v _ A B D). repeat split; assumption. Qed.
Lemma good_entity e d : good_model d -> good_model (write_entity (entity_json e) d).
Proof. intros (A & B & C). repeat split; try assumption. apply Forall_app. split; [exact C | repeat constructor; apply distinct_entity]. Qed.
Lemma good_events b total evs : forall i w d, good_model d -> good_model (snd (fst (write_events b total i evs w d))).
Proof.
  induction evs as [|[l|e] evs IH]; intros i w d G; cbn [write_events]; [exact G | apply IH, G|].
  destruct b; [|apply IH, good_entity, G]. destruct (take_one w) as [w'|]; [|exact G].
  specialize (IH (N.succ i) w' _ (good_entity e d G)). destruct (write_events true total (N.succ i) evs w' _) as [[rs d'] o]. exact IH.
Qed.
Lemma good_stage version args b w s : good_model (snd (fst (json_stage version args b w s))).
Proof.
  unfold json_stage. destruct (open_doc s) as [e|[[root key] rv]]; [exact good_empty|].
  destruct (parse_doc (get_parser (a_skip args) key rv) root) as [r evs] eqn:E.
  match goal with |- context [write_events b ?t 0 evs w ?d0] => set (d := d0); pose proof (good_events b t evs 0 w d) as G; destruct (write_events b t 0 evs w d) as [[rs d'] o] end.
  assert (GD : good_model d') by (apply G; unfold d; repeat (apply good_meta; [|exact Logic.I]); exact good_empty).
  destruct o; [|exact GD]. destruct r as [[]|e|]; [|exact GD..]. apply good_meta; [exact GD|].
  unfold reported_lint. apply distinct_list, Forall_map, Forall_forall. intros l H. apply filter_In in H as [H _]. apply In_lints_of in H.
  apply distinct_lint. apply (C27_wellformed _ _ _ _ (tame_sane _ (tame_parsers (a_skip args) key rv)) E). exact H.
Qed.

(** No object of a JSON file has the same key twice, whatever the input and however the run ended. *)
Theorem C71_keys version args b w inp d :
  r_file (parse_spec version args b w inp) = Some d -> distinct_keys (model_json d).
Proof.
  intros H. apply good_json. unfold parse_spec in H.
  assert (G : forall w s, match json_stage version args b w s with (rs, d, e) => good_model d end).
  { intros w' s. pose proof (good_stage version args b w' s) as G. destruct (json_stage version args b w' s) as [[rs d'] e]. exact G. }
  assert (K : forall w, r_file match inp with
      | Html s => let '(rs, d, e) := json_stage version args b w s in mkRun rs (Some d) e
      | Docx total is raised s =>
          let '(rs, o) := if b then html_reports total is w else ([], Some w) in
          match o with
          | None => mkRun rs None (Failed PClosed)
          | Some w' => if raised then mkRun rs None (Failed PConvert)
              else let '(rs', d, e) := json_stage version args b w' s in mkRun (rs ++ rs') (Some d) e
          end
      end = Some d -> good_model d).
  { intros w'. destruct inp as [s|total is raised s].
    - specialize (G w' s). destruct (json_stage version args b w' s) as [[rs d'] e]. intros Q. injection Q as <-. exact G.
    - destruct (if b then html_reports total is w' else ([], Some w')) as [rs [w2|]]; [|discriminate]. destruct raised; [discriminate|].
      specialize (G w2 s). destruct (json_stage version args b w2 s) as [[rs' d'] e]. intros Q. injection Q as <-. exact G. }
  destruct w as [[|p]|]; [discriminate | exact (K _ H) | exact (K _ H)].
Qed.

(** The text has no control character but line feeds: no carriage return, in particular, that a
    reader with another convention for line ends could take for one. *)
Definition plain (s : str) : Prop := Forall (fun c => c = 10 \/ 32 <= c) s.
Lemma plain_cons c s : 32 <= c -> plain s -> plain (c :: s).
Proof. intros. constructor; [right|]; assumption. Qed.
Lemma plain_app a b : plain a -> plain b -> plain (a ++ b).
Proof. intros. apply Forall_app. split; assumption. Qed.
Lemma plain_utf8 s : forallb (fun c => (c =? 10) || (32 <=? c)) (utf8 s) = true -> plain (utf8 s).
Proof. intros H. apply Forall_forall. intros c I. rewrite forallb_forall in H. specialize (H c I). lia. Qed.
Lemma plain_hex n : n < 16 -> 32 <= hex_digit n.
Proof. unfold hex_digit. destruct (N.ltb_spec n 10); lia. Qed.
Lemma plain_enc c : plain (enc_char c).
Proof.
  unfold enc_char. destruct (short_escape c) as [e|] eqn:E.
  - assert (32 <= e).
    { unfold short_escape in E. repeat match type of E with (if ?b then _ else _) = _ => destruct b end; inversion E; lia. }
    repeat apply plain_cons; try constructor; lia.
  - destruct (N.ltb_spec c 32); [|apply plain_cons; [assumption | constructor]].
    unfold u_escape, hex4. repeat apply plain_cons; try apply Forall_nil; try lia; apply plain_hex; try (apply N.mod_lt; lia).
    apply N.div_lt_upper_bound; lia.
Qed.
Lemma plain_quoted s : plain (quoted enc_char s).
Proof.
  unfold quoted. constructor; [right; lia|]. apply plain_app; [|apply plain_cons; [lia | constructor]].
  induction s as [|c s IH]; cbn [flat_map]; [constructor | apply plain_app; [apply plain_enc | exact IH]].
Qed.
Lemma plain_newline n : plain (newline_indent n).
Proof. constructor; [left; reflexivity|]. apply Forall_forall. intros c H. apply repeat_spec in H. right. lia. Qed.
Lemma plain_join sep l : plain sep -> Forall plain l -> plain (join sep l).
Proof.
  intros S. induction 1 as [|a [|b l] A F IH]; [constructor | exact A|]. change (join sep (a :: b :: l)) with (a ++ sep ++ join sep (b :: l)).
  repeat apply plain_app; assumption.
Qed.
Lemma plain_int z : plain (str_of_Z z).
Proof.
  pose proof (str_of_Z_jint z) as J. inversion J as [s n N E|s n N E]; destruct N as (_ & D & _); [|constructor; [right; lia|]];
    (eapply Forall_impl; [|exact D]; cbn; intros; right; lia).
Qed.
Lemma plain_dump j : forall n, plain (dump enc_char newline_indent [44] n j).
Proof.
  assert (SEP : forall n, plain ([44] ++ newline_indent n)) by (intros; apply plain_cons; [lia | apply plain_newline]).
  assert (ONE : forall c, 32 <= c -> plain [c]) by (intros; apply plain_cons; [assumption | constructor]).
  induction j as [|[]|z|s|l IH|l IH] using json_rec'; intros n; cbn [dump]; try (apply plain_utf8; reflexivity).
  - apply plain_int.
  - apply plain_quoted.
  - destruct l as [|a l]; [apply plain_utf8; reflexivity|].
    repeat apply plain_app; try apply plain_newline; try (apply ONE; lia). apply plain_join; [apply SEP|].
    apply Forall_map. eapply Forall_impl; [|exact IH]. cbn. auto.
  - destruct l as [|a l]; [apply plain_utf8; reflexivity|].
    repeat apply plain_app; try apply plain_newline; try (apply ONE; lia). apply plain_join; [apply SEP|].
    apply Forall_map. eapply Forall_impl; [|exact IH]. intros p H.
    apply plain_app; [apply plain_quoted | apply plain_app; [apply plain_utf8; reflexivity | apply H]].
Qed.
Theorem C71_plain d : Forall (fun c => c = 10 \/ 32 <= c) (file_text d).
Proof. apply plain_dump. Qed.

(** ** The claims are not empty *)

(** The text written for a small document with a quote, a line feed and a non-ASCII letter. *)
Example small_model : model :=
  mkModel [(utf8 "a""b", JStr [233; 10]); (utf8 "n", JInt (-12))] [JObj []; JList [JNull; JBool true]].
Example small_text : loads (file_text small_model) = Some (model_json small_model).
Proof. vm_compute. reflexivity. Qed.
(** The file of a run with two figures, one of them without an id: it is written and read back. *)
Example run_text :
  match r_file (parse_spec (utf8 "1") o_args true None (Html (Tree (o_doc [doc_good; doc_noid])))) with
  | Some d => loads (file_text d) = Some (model_json d) /\ List.length (mo_entities d) = 3%nat /\ lint_list d <> []
  | None => False
  end.
Proof. vm_compute. repeat split. discriminate. Qed.
(** A text that is not JSON, and one with a repeated key. *)
Example not_json : loads (utf8 "{'a': 1}") = None. Proof. reflexivity. Qed.
Example repeated : ~ distinct_keys (JObj [(utf8 "a", JNull); (utf8 "a", JNull)]).
Proof. intros [H _]. inversion H as [|? ? N _]. apply N. left. reflexivity. Qed.

Print Assumptions C71_text.
Print Assumptions C71_keys.
Print Assumptions C71_plain.
