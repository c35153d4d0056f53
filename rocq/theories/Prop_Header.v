(** C10, C11 (choice), C12: table headers, the extractor chosen for them, and the columns it
    reads.  The vocabulary is in SpecHeader.v. *)
From Coq Require Import NArith ZArith List Bool String Lia.
From Verif Require Import PyStr PyStrFacts Xml Json Lint RowIter Helpers Extract Document
  MFacts SpecText SpecLabel SpecHeader HeaderProofs.
Import ListNotations.
Local Open Scope list_scope.

(** The lint recorded for a header text [c] of figure [fig]: one T1006 naming both when it is
    a known variant, nothing otherwise. *)
Definition header_lint (fig c : str) (evs : list event) : Prop :=
  (exists v, known_variant c v /\
     evs = [EvLint (mkLint T1006 fig (code_msg T1006) None
              [(utf8 "got", JStr c); (utf8 "expected", JStr v)])])
  \/ ((forall v, ~ known_variant c v) /\ evs = []).

(** C10: one header per cell of the first row, in order, each normalised as [column_header]
    says; the lints are exactly the T1006 of the renamed ones, in order; nothing is raised. *)
Theorem C10_headers fig tbl tr rest f :
  fig <> [] -> children t_tr tbl = tr :: rest ->
  exists hs evss,
    extract_tbl_headers fig tbl f = (Ok hs, f, List.concat evss)
    /\ Forall2 (fun k h => column_header (itertext (fst k)) h) (e_kids tr) hs
    /\ Forall2 (fun k evs => exists c, header_form (itertext (fst k)) c /\ header_lint fig c evs)
               (e_kids tr) evss.
Proof.
  intros Hf Ht.
  assert (HC : hdr_cells tbl = map fst (e_kids tr)).
  { unfold hdr_cells, nth_child. rewrite Ht. reflexivity. }
  exists (map (fun k => final_hdr (hdr_of (fst k))) (e_kids tr)),
         (map (fun k => t1006 fig (hdr_of (fst k))) (e_kids tr)).
  rewrite extract_tbl_headers_spec by exact Hf. rewrite HC, map_map. split; [|split].
  - f_equal. clear. induction (e_kids tr) as [|k l IH]; [reflexivity|]. cbn. f_equal. exact IH.
  - clear. induction (e_kids tr) as [|k l IH]; constructor; [|exact IH].
    exists (hdr_of (fst k)). split; [apply hdr_of_form|]. unfold renamed, final_hdr.
    destruct (variant_of (hdr_of (fst k))) as [v|] eqn:E.
    + left. apply variant_of_iff. exact E.
    + right. split; [|reflexivity]. intros v Hv. apply variant_of_iff in Hv. congruence.
  - clear. induction (e_kids tr) as [|k l IH]; constructor; [|exact IH].
    exists (hdr_of (fst k)). split; [apply hdr_of_form|]. unfold header_lint, t1006.
    destruct (variant_of (hdr_of (fst k))) as [v|] eqn:E.
    + left. exists v. split; [apply variant_of_iff; exact E | reflexivity].
    + right. split; [|reflexivity]. intros v Hv. apply variant_of_iff in Hv. congruence.
Qed.
Print Assumptions C10_headers.

(** A table without rows has no headers. *)
Theorem C10_no_row fig tbl f :
  children t_tr tbl = [] -> extract_tbl_headers fig tbl f = (Ok [], f, []).
Proof. intros H. unfold extract_tbl_headers, hdr_cells, nth_child. rewrite H. reflexivity. Qed.
Print Assumptions C10_no_row.

(** The normal form is determined by the text, independently of layout. *)
Theorem C10_header_unique text h1 h2 : column_header text h1 -> column_header text h2 -> h1 = h2.
Proof.
  intros (c1 & F1 & R1) (c2 & F2 & R2).
  apply header_form_unique in F1, F2. subst. destruct R1 as [R1 | [R1 ->]], R2 as [R2 | [R2 ->]].
  - apply variant_of_iff in R1, R2. congruence.
  - destruct (R2 _ R1).
  - destruct (R1 _ R2).
  - reflexivity.
Qed.
Print Assumptions C10_header_unique.

(** Normalising an already normalised header changes nothing and renames nothing. *)
Theorem C10_normal_fixed text h :
  column_header text h -> header_form h h /\ (forall v, ~ known_variant h v).
Proof.
  intros H.
  assert (E : h = final_hdr (hdr_of (Elem [] [] text []))).
  { apply (C10_header_unique text); [exact H|]. exists (hdr_of (Elem [] [] text [])). split.
    - rewrite <- (app_nil_r text) at 1. apply (hdr_of_form (Elem [] [] text [])).
    - unfold renamed, final_hdr. destruct (variant_of _) as [v|] eqn:V.
      + left. apply variant_of_iff. exact V.
      + right. split; [|reflexivity]. intros v Hv. apply variant_of_iff in Hv. congruence. }
  destruct (header_fixed (Elem [] [] text [])) as [A B]. cbv zeta in A, B. rewrite <- E in A, B.
  unfold final_hdr in A. rewrite B in A. split.
  - rewrite <- A at 2. apply clean_form.
  - intros v Hv. apply variant_of_iff in Hv. rewrite A in B. congruence.
Qed.
Print Assumptions C10_normal_fixed.

(** White space around or inside (as runs of spaces or line breaks) does not matter: texts
    with the same normal form are the same header. *)
Example C10_layout :
  let cell t := (Elem t_td [] (utf8 t) [], []) in
  let tbl := Elem t_table [] [] [(Elem t_tr [] [] [cell "  Bit "%string; cell "Power   Scope"%string; cell ""%string], [])] in
  fst (fst (extract_tbl_headers (utf8 "7") tbl false))
  = Ok [utf8 "bits"; utf8 "power scope"; []]
  /\ lints_of (snd (extract_tbl_headers (utf8 "7") tbl false))
     = [mkLint T1006 (utf8 "7") (code_msg T1006) None
         [(utf8 "got", JStr (utf8 "bit")); (utf8 "expected", JStr (utf8 "bits"))]].
Proof. split; vm_compute; reflexivity. Qed.

(** ** C11 *)

(** Which extractor handles a table is decided by its headers: bytes, else values, else
    bits, else none. *)
Theorem C11_choice hdrs :
  ((exists m, select_extractor extractors hdrs = Some (BytesTableExtractor, m)) <-> applies_bytes hdrs)
  /\ ((exists m, select_extractor extractors hdrs = Some (ValueTableExtractor, m))
      <-> ~ applies_bytes hdrs /\ applies_values hdrs)
  /\ ((exists m, select_extractor extractors hdrs = Some (BitsTableExtractor, m))
      <-> ~ applies_bytes hdrs /\ ~ applies_values hdrs /\ applies_bits hdrs)
  /\ (select_extractor extractors hdrs = None
      <-> ~ applies_bytes hdrs /\ ~ applies_values hdrs /\ ~ applies_bits hdrs).
Proof.
  rewrite <- bytes_can, <- values_can, <- bits_can. cbn [select_extractor extractors].
  assert (X : forall c, (exists m, can_apply c hdrs = Some m) \/ can_apply c hdrs = None /\ ~ exists m, can_apply c hdrs = Some m).
  { intros c. destruct (can_apply c hdrs) as [m|]; [left; eauto | right; split; [reflexivity | intros (? & ?); discriminate]]. }
  assert (D1 : BytesTableExtractor <> ValueTableExtractor) by (intros E; discriminate (f_equal ec_kind E)).
  assert (D2 : BytesTableExtractor <> BitsTableExtractor) by (intros E; discriminate (f_equal ec_kind E)).
  assert (D3 : ValueTableExtractor <> BitsTableExtractor) by (intros E; discriminate (f_equal ec_kind E)).
  set (B := BytesTableExtractor) in *. set (V := ValueTableExtractor) in *. set (T := BitsTableExtractor) in *.
  clearbody B V T.
  destruct (X B) as [(m1 & E1) | (E1 & N1)]; rewrite !E1;
    [|destruct (X V) as [(m2 & E2) | (E2 & N2)]; rewrite !E2;
      [|destruct (X T) as [(m3 & E3) | (E3 & N3)]; rewrite !E3]];
    clear X; repeat split; intros;
    repeat match goal with
           | H : exists _, _ |- _ => destruct H
           | H : _ /\ _ |- _ => destruct H
           | H : Some _ = Some _ |- _ => injection H; clear H; intros
           end;
    try discriminate; try congruence; eauto; try (intros (? & ?); congruence);
    exfalso; match goal with H : ~ _ |- _ => apply H; eauto; fail end.
Qed.
Print Assumptions C11_choice.

(** When no extractor applies, the table yields no entity, and exactly one T1007 carrying the
    headers, after the T1006 of the headers. *)
Theorem C11_skipped P m tbl f hs t :
  m_fig m <> [] -> lookup_fig (p_fig_overrides P) (m_fig m) = None ->
  extract_tbl_headers (m_fig m) tbl f = (Ok hs, f, t) ->
  ~ applies_bytes hs -> ~ applies_values hs -> ~ applies_bits hs ->
  parse_figure P m tbl f
  = (Ok tt, false,
     t ++ [EvLint (mkLint T1007 (m_fig m) (code_msg T1007) None
             [(utf8 "columns", JList (map JStr hs))])])
  /\ ents_of t = [] /\ Forall (fun l => l_code l = T1006) (lints_of t).
Proof.
  intros Hf Ho He N1 N2 N3.
  pose proof (proj2 (proj2 (proj2 (proj2 (C11_choice hs)))) (conj N1 (conj N2 N3))) as Hs.
  rewrite extract_tbl_headers_spec in He by exact Hf. injection He as E1 E2. subst. split; [|].
  - unfold parse_figure. cbn [on_parse_fig]. unfold bind at 1, set_flag. unfold bind.
    rewrite extract_tbl_headers_spec by exact Hf. rewrite Ho, Hs.
    rewrite add_issue_tbl by (exact Hf || reflexivity). reflexivity.
  - clear. induction (hdr_cells tbl) as [|c l [IH1 IH2]]; [split; [reflexivity | constructor]|].
    cbn [flat_map]. rewrite ents_of_app, lints_of_app, IH1. unfold t1006.
    destruct (variant_of (hdr_of c)); cbn; split; auto.
Qed.
Print Assumptions C11_skipped.

Example C11_each :
  applies_bytes [utf8 "description"; utf8 "bytes"; utf8 "value"]
  /\ applies_values [utf8 "value"; utf8 "meaning"]
  /\ applies_values [utf8 "bits"; utf8 "values"; utf8 "description"]
  /\ applies_bits [utf8 "bits"; utf8 "attribute"; utf8 "description"]
  /\ select_extractor extractors [utf8 "values"; utf8 "meaning"] = None
  /\ select_extractor extractors [utf8 "bits"; utf8 "attribute"] = None.
Proof.
  unfold applies_bytes, applies_values, applies_bits, has_hdr.
  repeat split; try (cbn; tauto); try (vm_compute; reflexivity).
  - right. exists (utf8 "meaning"). repeat split; try discriminate. left. reflexivity.
Qed.

(** ** C12 *)

(** The header of each component is the first in the table that is one of the accepted names
    (or, for a two-column value table without any accepted label or content header, the
    header other than 'value'), and the column read is the last one carrying it. *)
Theorem C12_columns parse P m tbl hdrs c mp :
  can_apply c hdrs = Some mp ->
  first_of hdrs (ec_key_hdrs c) (mp_key mp)
  /\ ((first_of hdrs (ec_label_hdrs c) (mp_label mp) /\ first_of hdrs (ec_content_hdrs c) (mp_content mp))
      \/ (ec_kind c = EKValues /\ List.length hdrs = 2%nat /\ mp_key mp = utf8 "value"
          /\ mp_label mp = mp_content mp /\ mp_label mp <> utf8 "value" /\ mp_label mp <> [] /\ In (mp_label mp) hdrs))
  /\ exists k l d,
       last_position hdrs (mp_key mp) k /\ last_position hdrs (mp_label mp) l
       /\ last_position hdrs (mp_content mp) d
       /\ run_extractor parse P m tbl hdrs c mp
          = Some (match ec_kind c with
                  | EKStruct sk => struct_call parse (mkX c m k l d) sk tbl
                  | EKValues => value_call parse (p_label_overrides P) (mkX c m k l d) tbl
                  end).
Proof.
  intros H. split; [|split; [|apply run_extractor_some; exact H]].
  - unfold can_apply in H. destruct (first_hdr hdrs (ec_key_hdrs c)) as [k|] eqn:EK; [|discriminate].
    assert (mp_key mp = k); [|subst; apply first_hdr_some; exact EK].
    destruct (first_hdr hdrs (ec_label_hdrs c)), (first_hdr hdrs (ec_content_hdrs c)); try (injection H as <-; reflexivity);
      (destruct (ec_kind c); [discriminate|]; destruct (_ && _); [|discriminate];
       destruct (find _ hdrs) as [[|? ?]|]; try discriminate; injection H as <-; reflexivity).
  - unfold can_apply in H. destruct (first_hdr hdrs (ec_key_hdrs c)) as [k|] eqn:EK; [|discriminate].
    assert (FB : match ec_kind c with
      | EKStruct _ => None
      | EKValues => if (N.of_nat (List.length hdrs) =? 2)%N && seqb k h_value then
            match find (fun h => negb (seqb h h_value)) hdrs with
            | Some [] => None | Some o => Some (mkMap k o o) | None => None end else None end = Some mp ->
      (ec_kind c = EKValues /\ List.length hdrs = 2%nat /\ mp_key mp = utf8 "value"
          /\ mp_label mp = mp_content mp /\ mp_label mp <> utf8 "value" /\ mp_label mp <> [] /\ In (mp_label mp) hdrs)).
    { destruct (ec_kind c); [discriminate|]. destruct (_ && _) eqn:E; [|discriminate].
      apply andb_true_iff in E as [E1 E2]. apply seqb_eq in E2.
      destruct (find _ hdrs) as [[|o0 o]|] eqn:Fd; try discriminate. intros [= <-]. cbn [mp_key mp_label mp_content].
      apply find_some in Fd as [Fd1 Fd2]. apply negb_true_iff, seqb_neq in Fd2.
      repeat split; auto; [|discriminate]. apply N.eqb_eq in E1. lia. }
    destruct (first_hdr hdrs (ec_label_hdrs c)) as [l|] eqn:EL.
    + destruct (first_hdr hdrs (ec_content_hdrs c)) as [d|] eqn:ED; [|right; apply FB; exact H].
      left. injection H as <-. split; apply first_hdr_some; assumption.
    + right. apply FB. exact H.
Qed.
Print Assumptions C12_columns.

(** When no header is repeated, the last column carrying a header is also the first. *)
Theorem C12_distinct hdrs h k :
  NoDup hdrs -> (last_position hdrs h k <-> nth_error hdrs k = Some h).
Proof.
  intros ND. split.
  - intros (a & b & -> & <- & _). rewrite nth_error_app2 by lia. rewrite Nat.sub_diag. reflexivity.
  - intros H. apply nth_error_split in H as (a & b & -> & L). exists a, b. repeat split; auto.
    apply NoDup_remove_2 in ND. intros I. apply ND. apply in_or_app. right. exact I.
Qed.
Print Assumptions C12_distinct.

(** With a repeated header the column read is not the first match. *)
Theorem C12_first_match_refuted :
  exists hdrs mp k, can_apply BitsTableExtractor hdrs = Some mp
    /\ last_position hdrs (mp_content mp) k
    /\ exists j, (j < k)%nat /\ nth_error hdrs j = Some (mp_content mp).
Proof.
  exists [utf8 "bits"; utf8 "description"; utf8 "description"], (mkMap h_bits h_description h_description), 2%nat.
  split; [reflexivity|]. split.
  - exists [utf8 "bits"; utf8 "description"], []. repeat split. intros [].
  - exists 1%nat. split; [lia | reflexivity].
Qed.
Print Assumptions C12_first_match_refuted.
