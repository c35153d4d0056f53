(** Properties C03-C06, C08 and C09: the checks made on a finished field list.
    [validate_struct x fs f] / [validate_values x fs f] are the validate_fields methods run on
    the list [fs] of fields that is then emitted (theorems C07_* in Prop_Table.v show that this
    is the emitted list); the result is (outcome, flag, recorded events) and [lints_of] lists
    the lint entries among the events. *)
From Coq Require Import NArith ZArith List Bool String Lia.
From Verif Require Import PyStr Xml Json Lint Extract SpecFields MFacts ValidateProofs.
Import ListNotations.
Local Open Scope list_scope.
Local Open Scope N_scope.

(** C06: rows out of order: one T1004 and nothing else. *)
Theorem C06_order_reported : forall x fs f,
  x_fig x <> [] -> out_of_order fs ->
  validate_struct x fs f
  = (Ok tt, f, [EvLint (mkLint T1004 (x_fig x) (code_msg T1004) None [])]).
Proof. intros. apply validate_struct_bad; assumption. Qed.
Print Assumptions C06_order_reported.

(** C06: and only then. *)
Theorem C06_order_iff : forall x fs f,
  x_fig x <> [] ->
  exists evs, validate_struct x fs f = (Ok tt, f, evs)
    /\ ((exists e, In e (lints_of evs) /\ l_code e = T1004) <-> out_of_order fs).
Proof.
  intros x fs f Hx. destruct (out_of_order_dec fs) as [O | O].
  - eexists. split; [apply validate_struct_bad; assumption|]. split; [auto|].
    intros _. eexists. split; [left; reflexivity | reflexivity].
  - exists (expected_all x fs). split; [apply validate_struct_good; assumption|]. split; [|tauto].
    intros (e & He & Hc). destruct (expected_all_codes x fs) as (_ & _ & _ & I).
    destruct (I e He) as [H | [H | H]]; congruence.
Qed.
Print Assumptions C06_order_iff.

(** C03, C08: exact lists of T1001, T1002 and L1002 entries, and nothing else. *)
Theorem C03_neighbour_lints : forall x fs f,
  x_fig x <> [] -> ~ out_of_order fs ->
  exists evs, validate_struct x fs f = (Ok tt, f, evs)
    /\ of_code T1001 (lints_of evs)
       = map (fun pq => row_lint T1001 (x_fig x) (field_key (snd pq)) [])
             (filter overlapping (neighbours fs))
    /\ of_code T1002 (lints_of evs)
       = map (fun pq => row_lint T1002 (x_fig x) (field_key (snd pq)) [])
             (filter gapping (neighbours fs))
    /\ forall e, In e (lints_of evs) -> l_code e = T1001 \/ l_code e = T1002 \/ l_code e = L1002.
Proof.
  intros x fs f Hx O. exists (expected_all x fs). split; [apply validate_struct_good; assumption|].
  destruct (expected_all_codes x fs) as (I1 & I2 & _ & I4). auto.
Qed.
Print Assumptions C03_neighbour_lints.

(** C03, in words: T1001 for a field iff it and its predecessor are numeric, not ellipsis and
    predecessor's high >= its low; T1002 iff predecessor's high + 1 < its low. *)
Theorem C03_overlap_gap_iff : forall x fs f,
  x_fig x <> [] -> ~ out_of_order fs ->
  exists evs, validate_struct x fs f = (Ok tt, f, evs)
    /\ forall e,
      (In (EvLint e) evs /\ l_code e = T1001 <->
         exists a p q b, fs = a ++ p :: q :: b /\ overlap p q
           /\ e = row_lint T1001 (x_fig x) (field_key q) [])
      /\ (In (EvLint e) evs /\ l_code e = T1002 <->
         exists a p q b, fs = a ++ p :: q :: b /\ gap p q
           /\ e = row_lint T1002 (x_fig x) (field_key q) []).
Proof.
  intros x fs f Hx O. exists (expected_all x fs). split; [apply validate_struct_good; assumption|].
  intros e. rewrite !expected_all_In. split; split.
  - intros [[(a & g & b & _ & _ & _ & E) | [(a & p & q & b & E & H & Ev) | (a & p & q & b & _ & _ & Ev)]] C];
      [injection E as ->; discriminate | | injection Ev as ->; discriminate].
    exists a, p, q, b. injection Ev as ->. auto.
  - intros (a & p & q & b & E & H & ->). split; [|reflexivity].
    right. left. exists a, p, q, b. auto.
  - intros [[(a & g & b & _ & _ & _ & E) | [(a & p & q & b & E & H & Ev) | (a & p & q & b & E & H & Ev)]] C];
      [injection E as ->; discriminate | injection Ev as ->; discriminate |].
    exists a, p, q, b. injection Ev as ->. auto.
  - intros (a & p & q & b & E & H & ->). split; [|reflexivity].
    right. right. exists a, p, q, b. auto.
Qed.
Print Assumptions C03_overlap_gap_iff.

(** C04 (on the field list; for whole tables see Prop_Table.v): numeric fields with low <= high
    and none of T1001, T1002, T1004 recorded: contiguous, and a partition of the offsets. *)
Theorem C04_clean_partition : forall x fs f evs,
  x_fig x <> [] ->
  validate_struct x fs f = (Ok tt, f, evs) ->
  Forall (fun g => exists lo hi, numeric g lo hi /\ (lo <= hi)%Z) fs ->
  (forall e, In (EvLint e) evs -> l_code e <> T1001 /\ l_code e <> T1002 /\ l_code e <> T1004) ->
  contiguous fs /\ partition fs.
Proof. exact clean_partition. Qed.
Print Assumptions C04_clean_partition.

(** C05: contiguous lists are not flagged (only duplicate labels can be). *)
Theorem C05_contiguous_clean : forall x fs f,
  x_fig x <> [] -> contiguous fs ->
  Forall (fun g => exists lo hi, sf_range g = RInt lo hi /\ (lo <= hi)%Z) fs ->
  exists evs, validate_struct x fs f = (Ok tt, f, evs)
    /\ forall e, In (EvLint e) evs -> l_code e = L1002.
Proof. exact contiguous_clean. Qed.
Print Assumptions C05_contiguous_clean.

(** C08 *)
Theorem C08_duplicate_labels : forall x fs f,
  x_fig x <> [] -> ~ out_of_order fs ->
  exists evs, validate_struct x fs f = (Ok tt, f, evs)
    /\ of_code L1002 (lints_of evs)
       = map (fun bf => row_lint L1002 (x_fig x) (field_key (snd bf))
                          [(utf8 "label", JStr (sf_label (snd bf)))])
             (filter repeated_label (with_earlier [] fs)).
Proof.
  intros x fs f Hx O. exists (expected_all x fs). split; [apply validate_struct_good; assumption|].
  destruct (expected_all_codes x fs) as (_ & _ & I3 & _). exact I3.
Qed.
Print Assumptions C08_duplicate_labels.

Theorem C08_labels_distinct : forall x fs f evs,
  x_fig x <> [] ->
  validate_struct x fs f = (Ok tt, f, evs) ->
  (forall e, In (EvLint e) evs -> l_code e <> L1002 /\ l_code e <> T1004) ->
  forall a p b q c, fs = a ++ p :: b ++ q :: c -> plain (sf_label q) -> sf_label p <> sf_label q.
Proof.
  intros x fs f evs Hx E Hno. destruct (out_of_order_dec fs) as [O | O].
  - rewrite (validate_struct_bad x fs f Hx O) in E. injection E as <-.
    destruct (Hno _ (or_introl eq_refl)) as (_ & H). cbn in H. congruence.
  - rewrite (validate_struct_good x fs f Hx O) in E. injection E as <-.
    apply (distinct_struct_labels x). apply of_code_nil.
    intros e He. apply Hno. apply In_lints_of. exact He.
Qed.
Print Assumptions C08_labels_distinct.

(** C09 *)
Theorem C09_value_duplicates : forall x fs f,
  x_fig x <> [] ->
  exists evs, validate_values x fs f = (Ok tt, f, evs)
    /\ of_code L1002 (lints_of evs)
       = map (fun bf => row_lint L1002 (x_fig x) (vf_val (snd bf))
                          [(utf8 "label", JStr (vf_label (snd bf)))])
             (filter repeated_vlabel (with_earlier [] fs))
    /\ of_code V1002 (lints_of evs)
       = map (fun bf => row_lint V1002 (x_fig x) (vf_val (snd bf)) [])
             (filter repeated_value (with_earlier [] fs))
    /\ forall e, In e (lints_of evs) -> l_code e = L1002 \/ l_code e = V1002.
Proof.
  intros x fs f Hx. exists (expected_values x [] fs). split; [apply validate_values_spec; exact Hx|].
  exact (expected_values_codes x fs []).
Qed.
Print Assumptions C09_value_duplicates.

Theorem C09_values_distinct : forall x fs f evs,
  x_fig x <> [] ->
  validate_values x fs f = (Ok tt, f, evs) -> evs = [] ->
  forall a p b q c, fs = a ++ p :: b ++ q :: c -> plain (vf_label p) -> plain (vf_label q) ->
    vf_label p <> vf_label q /\ vf_val p <> vf_val q.
Proof.
  intros x fs f evs Hx E H. rewrite (validate_values_spec x fs f Hx) in E. injection E as E.
  apply (distinct_value_labels x). congruence.
Qed.
Print Assumptions C09_values_distinct.

(** ** The hypotheses are met by non-trivial lists, and what the naive reading gets wrong *)
Definition fld (l : string) (r : range) : sfield := mkSField (utf8 l) r None.
Definition demo_ctx : xctx := mkX BytesTableExtractor (mkMeta None (utf8 "7") None) 0 1 2.

Example demo_not_out_of_order :
  validate_struct demo_ctx
    [fld "a" (RInt 0 3); fld "b" (RInt 2 7); fld "a" (RInt 9 9); fld "c" (RDyn [65] [66])] false
  = (Ok tt, false,
     [EvLint (row_lint T1001 (utf8 "7") (utf8 "2") []);
      EvLint (row_lint L1002 (utf8 "7") (utf8 "9") [(utf8 "label", JStr (utf8 "a"))]);
      EvLint (row_lint T1002 (utf8 "7") (utf8 "9") [])]).
Proof. vm_compute. reflexivity. Qed.

(** A descending neighbour pair (5 after 8) that is not below the first low: no T1004. *)
Theorem C06_naive_order_refuted : exists x fs evs,
  (exists a p q b lp hp lq hq,
     fs = a ++ p :: q :: b /\ numeric p lp hp /\ numeric q lq hq /\ (lq < lp)%Z)
  /\ validate_struct x fs false = (Ok tt, false, evs)
  /\ forall e, In e (lints_of evs) -> l_code e <> T1004.
Proof.
  exists demo_ctx, [fld "a" (RInt 0 0); fld "b" (RInt 8 9); fld "c" (RInt 5 6)].
  eexists. split; [|split; [vm_compute; reflexivity|]].
  - exists [fld "a" (RInt 0 0)], (fld "b" (RInt 8 9)), (fld "c" (RInt 5 6)), [], 8%Z, 9%Z, 5%Z, 6%Z.
    split; [reflexivity|]. split; [split; [discriminate | reflexivity]|].
    split; [split; [discriminate | reflexivity] | reflexivity].
  - intros e He. cbn in He. repeat (destruct He as [<- | He]; [discriminate|]). destruct He.
Qed.
Print Assumptions C06_naive_order_refuted.

Example demo_out_of_order : out_of_order [fld "a" (RInt 4 7); fld "b" (RInt 8 9); fld "c" (RInt 0 3)].
Proof.
  exists [], (fld "a" (RInt 4 7)), [fld "b" (RInt 8 9)], (fld "c" (RInt 0 3)), [], 4%Z, 0%Z, 7%Z, 3%Z.
  split; [reflexivity|]. split; [left; reflexivity|]. split.
  { constructor; [|constructor]. split; [discriminate | intros s H; discriminate]. }
  split; [split; [discriminate | reflexivity]|]. split; [split; [discriminate | reflexivity] | reflexivity].
Qed.

Example demo_clean : let fs := [fld "a" (RInt 0 3); fld "b" (RInt 4 4); fld "RESERVED" (RInt 5 31)] in
  validate_struct demo_ctx fs false = (Ok tt, false, []) /\ contiguous fs
  /\ Forall (fun g => exists lo hi, numeric g lo hi /\ (lo <= hi)%Z) fs.
Proof.
  split; [vm_compute; reflexivity|]. split.
  - repeat econstructor.
  - repeat constructor; eexists; eexists; (split; [split; [discriminate | reflexivity] | discriminate]).
Qed.

Example demo_values :
  validate_values demo_ctx
    [mkVField (utf8 "0h") (utf8 "A") None; mkVField (utf8 "1h") (utf8 "RESERVED") None;
     mkVField (utf8 "1h") (utf8 "A") None; mkVField (utf8 "1h") (utf8 "B") None] true
  = (Ok tt, true,
     [EvLint (row_lint L1002 (utf8 "7") (utf8 "1h") [(utf8 "label", JStr (utf8 "A"))]);
      EvLint (row_lint V1002 (utf8 "7") (utf8 "1h") [])]).
Proof. vm_compute. reflexivity. Qed.
