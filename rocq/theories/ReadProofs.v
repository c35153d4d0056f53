(** Proofs for C77: reading a table with nested figures left out. *)
From Coq Require Import NArith ZArith List Bool String Lia ZifyBool ZifyN.
From Verif Require Import PyTables PyStr PyStrFacts Regex Regexes Xml Json Lint RowIter Helpers Extract Document
  RegexFacts MFacts SpecText SpecFields SpecLabel SpecHeader SpecRows SpecTable SpecDoc SpecRun SpecReads
  RangeProofs LabelProofs ValidateProofs RowProofs HeaderProofs TableProofs SizeProofs Prop_Header DocProofs DocFlow DocRuns
  Prop_Table Prop_Doc SpecNames NameProofs CellRead.
Import ListNotations.
Local Open Scope list_scope.
Local Open Scope N_scope.
Local Open Scope m_scope.

Definition quiet : meta -> elem -> M unit := fun _ _ => ret tt.
Lemma sub_quiet m c f : extract_data_sub_table quiet m c f = (Ok tt, f, []).
Proof. unfold extract_data_sub_table. induction (children t_table c) as [|e l IH]; [reflexivity|]. cbn [iterM]. unfold quiet at 1. rewrite bind_ret. exact IH. Qed.
Lemma bind_exn_inv {A B} (m : M A) (k : A -> M B) f e f' t : bind m k f = (Exn e, f', t) ->
  (exists f1 t1, m f = (Exn e, f1, t1)) \/ exists a f1 t1 t2, m f = (Ok a, f1, t1) /\ k a f1 = (Exn e, f', t2).
Proof.
  unfold bind. destruct (m f) as [[[a|e'|] f1] t1]; [|intros [= <- <- <-]; eauto | discriminate].
  destruct (k a f1) as [[r f2] t2] eqn:K. intros [= <- <- <-]. right. exists a, f1, t1, t2. auto.
Qed.
Lemma fl_ok {A} (m : M A) f e f' t a f2 t2 g : flagless m -> m f = (Exn e, f', t) -> m g = (Ok a, f2, t2) -> False.
Proof. intros (r & ev & E) H1 H2. rewrite E in H1, H2. congruence. Qed.

(** ** Ranges *)
Lemma range_exn x t key f e f' evs : x_fig x <> [] -> parse_range x t key f = (Exn e, f', evs) -> too_long t.
Proof.
  intros Hx H. destruct (range_forms t) as [(hi & lo & T) | [(hi & T) | T]].
  - left. exists hi, lo. split; [exact T|]. intros [C1 C2]. rewrite (parse_range_two x Hx t hi lo) in H by assumption. discriminate.
  - right. exists hi. split; [exact T|]. intros C. rewrite (parse_range_one x t hi) in H by assumption. discriminate.
  - rewrite (parse_range_text x Hx) in H by assumption. discriminate.
Qed.
Lemma too_long_reads t r : too_long t -> reads_numbers t r -> False.
Proof.
  intros TL RN. set (x := mkX BitsTableExtractor (mkMeta None [65] None) 0 0 0).
  destruct (reads_numbers_ok x t r [] false) as (e & E); [discriminate | exact RN |].
  destruct TL as [(hi & lo & T & C) | (n & T & C)].
  - rewrite (parse_range_two_long x t hi lo) in E by assumption. discriminate.
  - rewrite (parse_range_one_long x t n) in E by assumption. discriminate.
Qed.
Lemma dynamic_exn x t f e f' evs : x_fig x <> [] -> parse_dynamic_range x t f = (Exn e, f', evs) -> False.
Proof.
  intros Hx H. destruct (dyn_split (replace_char 32 [] (replace_char 10 [] t))) as [[a b]|] eqn:D.
  - rewrite (formula_range_ok x t a b f) in H by (apply formula_range_split; exact D). discriminate.
  - rewrite (formula_range_none x t f Hx) in H; [discriminate|]. intros a b F. apply formula_range_split in F. congruence.
Qed.
Lemma validate_exn l fig key f e f' evs : fig <> [] -> validate_label l fig key f = (Exn e, f', evs) -> False.
Proof.
  intros Hx. unfold validate_label. destruct (label_invalid l); [|discriminate]. unfold add_issue.
  destruct (seqb_spec fig []) as [E|_]; [contradiction|]. cbn. discriminate.
Qed.
Lemma issue_exn x c key ctx f e f' evs : x_fig x <> [] -> issue x c (Some key) ctx f = (Exn e, f', evs) -> False.
Proof. intros Hx. unfold issue, add_issue. destruct (seqb_spec (x_fig x) []) as [E|_]; [contradiction|]. rewrite andb_false_r. discriminate. Qed.
Lemma label_exn x t key f e f' evs : x_fig x <> [] -> parse_label x t key f = (Exn e, f', evs) -> False.
Proof.
  intros Hx H. unfold parse_label in H. apply bind_exn_inv in H as [(f1 & t1 & H) | (a & f1 & t1 & t2 & _ & H)].
  - destruct (Nat.eqb _ _).
    + unfold extract_label_same in H. destruct (re_match _ t).
      * destruct (grp_nonempty _ _); [discriminate|]. destruct (grp_nonempty _ _); [destruct (smem _ _); discriminate|].
        apply bind_exn_inv in H as [(? & ? & H)|(? & ? & ? & ? & _ & H)]; [eapply issue_exn; eassumption | discriminate].
      * apply bind_exn_inv in H as [(? & ? & H)|(? & ? & ? & ? & _ & H)]; [eapply issue_exn; eassumption | discriminate].
    + unfold extract_label_separate in H. destruct (split1 58 t) as [h [u|]].
      * apply bind_exn_inv in H as [(? & ? & H)|(? & ? & ? & ? & _ & H)]; [|discriminate]. destruct (has_char 32 h); [eapply issue_exn; eassumption | discriminate].
      * apply bind_exn_inv in H as [(? & ? & H)|(? & ? & ? & ? & _ & H)]; [eapply issue_exn; eassumption | discriminate].
  - apply bind_exn_inv in H as [(? & ? & H)|(? & ? & ? & ? & _ & H)]; [eapply validate_exn; eassumption | discriminate].
Qed.

(** ** One row *)
Lemma not_prefix a t : startswith a t = false -> forall u, t <> a ++ u.
Proof. intros S u E. assert (startswith a t = true) by (apply startswith_app; eauto). congruence. Qed.
Lemma row_exn x dyn y f e f' t : x_fig x <> [] -> row_step quiet x dyn y f = (Exn e, f', t) -> row_fails x dyn y.
Proof.
  intros Hx. unfold row_step. destruct (extract_fields x (y_row y)) as [[[[rt ct] lt] c]|] eqn:EF.
  - apply extract_fields_some in EF as (k & l & RC & -> & -> & ->).
    destruct (is_special_case (to_text k) || is_special_case (to_text l) || is_special_case (to_text c)) eqn:SP.
    + destruct (is_special_case (to_text k)) eqn:SK; [discriminate|]. cbn [orb] in SP. apply special_not in SK.
      apply orb_true_iff in SP. rewrite !special_iff in SP. intros H.
      apply bind_exn_inv in H as [(? & ? & H)|(? & ? & ? & ? & _ & H)]; [|discriminate]. apply range_exn in H; [|exact Hx].
      eapply rx_number; try eassumption. right. exact SP.
    + apply orb3_false in SP as (S1 & _ & _). apply special_not in S1. intros H.
      apply bind_exn_inv in H as [(? & ? & H)|(r & ? & ? & ? & _ & H)].
      * destruct dyn; [apply dynamic_exn in H; [destruct H | exact Hx]|]. apply range_exn in H; [|exact Hx]. eapply rx_number; eauto.
      * apply bind_exn_inv in H as [(? & ? & H)|(lb & ? & ? & ? & _ & H)]; [apply label_exn in H; [destruct H | exact Hx]|].
        unfold bind in H. rewrite sub_quiet in H. discriminate.
  - pose proof (proj1 (extract_fields_none x (y_row y)) EF) as NC.
    destruct (startswith ELLIPSIS (lower (to_text (y_row y)))) eqn:S1; [discriminate|].
    destruct (startswith (utf8 "note") (lower (to_text (y_row y)))) eqn:S2; [discriminate|].
    destruct (row_err_handler (ec_handler (x_cls x)) y) as [[] ex] eqn:HD; try discriminate. intros _.
    apply rx_short; [exact NC | apply not_prefix; exact S1 | apply not_prefix; exact S2 | |]; apply (proj1 (refused_iff x y) (ex_intro _ ex HD)).
Qed.
Lemma fails_gives x dyn y o : row_fails x dyn y -> row_gives x dyn y o -> False.
Proof.
  intros F G. destruct F as [k c l RC SK D TL | NC N1 N2 NT NS]; destruct G; repeat same_cells; try contradiction; try congruence;
    try (match goal with E : lower _ = _ ++ _, N : forall u, lower _ <> _ |- _ => exact (N _ E) end);
    try (match goal with H : row_cells _ _ _ _ _, N : forall k c l, ~ row_cells _ _ _ _ _ |- _ => exact (N _ _ _ H) end);
    try (eapply too_long_reads; eassumption).
  destruct D as [->|[D|D]]; try contradiction. eapply too_long_reads; eassumption.
Qed.
Lemma fails_ends x dyn y : row_fails x dyn y -> row_ends x y -> False.
Proof.
  intros F G. destruct F as [k c l RC SK D TL | NC N1 N2 NT NS]; destruct G;
    try (match goal with H : row_cells _ _ _ _ _, N : forall k c l, ~ row_cells _ _ _ _ _ |- _ => exact (N _ _ _ H) end); try congruence;
    try (match goal with E : lower _ = _ ++ _, N : forall u, lower _ <> _ |- _ => exact (N _ E) end);
    try (match goal with N : forall n, ~ splits_off _ _ n |- _ => eapply N; eassumption end).
Qed.

(** ** The rows of a struct table *)
Lemma row_total x dyn y f : x_fig x <> [] -> exists r t, row_step quiet x dyn y f = (r, f, t) /\ r <> OutOfFuel.
Proof.
  intros Hx. destruct (row_follows x dyn y Hx) as (s & fin & [NF F] & _). destruct (exec_quiet s fin f) as (t & E).
  exists fin, t. split; [|exact NF]. change quiet with (fun (_ : meta) (_ : elem) => ret tt). rewrite F. exact E.
Qed.
Definition above_ends (x : xctx) (a : list yrow) : Prop := exists y, In y a /\ data_row y /\ row_ends x y.
Definition obst (x : xctx) (dyn : bool) (rows : list yrow) (fin : option exn) : Prop :=
  (exists a y b, rows = a ++ y :: b /\ (forall z, In z a -> data_row z -> ~ row_ends x z) /\ data_row y /\ row_fails x (dyn || lists_above a) y)
  \/ (exists e, fin = Some e /\ forall z, In z rows -> data_row z -> ~ row_ends x z).
Lemma obst_cons x dyn y rows fin : (data_row y -> ~ row_ends x y) ->
  obst x (dyn || (contains_th (y_row y) && announces_list (y_row y))) rows fin -> obst x dyn (y :: rows) fin.
Proof.
  intros NE [(a & z & b & -> & N & D & F) | (e & -> & N)].
  - left. exists (y :: a), z, b. split; [reflexivity|]. split; [intros w [<-|I]; [exact NE | exact (N w I)]|]. split; [exact D|].
    cbn [lists_above existsb]. rewrite orb_assoc. exact F.
  - right. exists e. split; [reflexivity|]. intros w [<-|I]; [exact NE | exact (N w I)].
Qed.
Lemma header_not y : contains_th (y_row y) = true -> ~ data_row y.
Proof. intros TH D. apply contains_th_children in D. congruence. Qed.
Lemma run_quiet x fin : x_fig x <> [] -> forall rows dyn fields f,
  (exists gs ex t, run_rows quiet x rows fin dyn fields f = (Ok (fields ++ gs, ex), f, t) /\ rows_give x dyn rows gs
     /\ (fin = None \/ above_ends x rows))
  \/ (exists e t, run_rows quiet x rows fin dyn fields f = (Exn e, f, t) /\ obst x dyn rows fin).
Proof.
  intros Hx. induction rows as [|y rest IH]; intros dyn fields f.
  - destruct fin as [e|]; cbn [run_rows].
    + right. exists e, []. split; [reflexivity|]. right. exists e. split; [reflexivity|]. intros z [].
    + left. exists [], None, []. rewrite app_nil_r. split; [reflexivity|]. split; [constructor | auto].
  - cbn [run_rows]. destruct (contains_th (y_row y)) eqn:TH.
    + assert (HT : children t_th (y_row y) <> []) by (exact (header_not y TH)).
      destruct (IH (dyn || announces_list (y_row y)) fields f) as [(gs & ex & t & E & G & EN) | (e & t & E & O)].
      * left. exists gs, ex, t. split; [exact E|]. split; [apply tg_header; assumption|].
        destruct EN as [EN|(z & I & D & R)]; [left; exact EN | right; exists z; split; [right; exact I | auto]].
      * right. exists e, t. split; [exact E|]. apply obst_cons; [intros D; destruct (header_not y TH D)|]. rewrite TH. exact O.
    + assert (DR := TH). apply contains_th_children in TH.
      destruct (row_total x dyn y f Hx) as (r & t1 & RS & NF). destruct r as [o|e|]; [| |destruct (NF eq_refl)].
      * pose proof (row_step_inv _ _ _ _ _ _ _ _ Hx RS) as RI.
        assert (NX : forall gs0, (forall g, o <> RStop g) -> row_gives x dyn y gs0 -> data_row y -> ~ row_ends x y).
        { intros gs0 _ RG _ RE. exact (row_ends_gives _ _ _ _ RE RG). }
        assert (K : forall fields' g, (o = RNone /\ fields' = fields /\ g = [] \/ exists fld, o = RField fld /\ fields' = fields ++ [fld] /\ g = [fld]) ->
          (exists gs ex t, (let '(r, f2, t2) := run_rows quiet x rest fin dyn fields' f in (r, f2, t1 ++ t2)) = (Ok (fields ++ gs, ex), f, t) /\ rows_give x dyn (y :: rest) gs /\ (fin = None \/ above_ends x (y :: rest)))
          \/ (exists e t, (let '(r, f2, t2) := run_rows quiet x rest fin dyn fields' f in (r, f2, t1 ++ t2)) = (Exn e, f, t) /\ obst x dyn (y :: rest) fin)).
        { intros fields' g C. destruct (IH dyn fields' f) as [(gs & ex & t & E & G & EN) | (e & t & E & O)]; rewrite E.
          - left. exists (g ++ gs), ex, (t1 ++ t). split; [|split].
            + destruct C as [(-> & -> & ->) | (fld & -> & -> & ->)]; [reflexivity | rewrite <- app_assoc; reflexivity].
            + destruct C as [(-> & -> & ->) | (fld & -> & -> & ->)]; [apply tg_nothing; assumption | apply tg_field; [assumption | exact (proj1 RI) | assumption]].
            + destruct EN as [EN|(z & I & D & R)]; [left; exact EN | right; exists z; split; [right; exact I | auto]].
          - right. exists e, (t1 ++ t). split; [reflexivity|]. apply obst_cons; [|rewrite DR, orb_false_r; exact O].
            destruct C as [(-> & -> & ->) | (fld & -> & -> & ->)]; [apply (NX None); [discriminate | exact RI] | apply (NX (Some fld)); [discriminate | exact (proj1 RI)]]. }
        unfold bind. rewrite RS. destruct o as [fld| |ex].
        -- apply (K (fields ++ [fld]) [fld]). right. eauto.
        -- apply (K fields []). left. auto.
        -- left. exists [], ex, (t1 ++ []). rewrite app_nil_r. split; [reflexivity|]. split; [apply tg_stop; assumption|].
           right. exists y. split; [left; reflexivity | split; [exact TH | exact RI]].
      * right. exists e, t1. unfold bind. rewrite RS. split; [reflexivity|]. left. exists [], y, rest. split; [reflexivity|].
        split; [intros z []|]. split; [exact TH|]. cbn [lists_above existsb]. rewrite orb_false_r. eapply row_exn; eassumption.
Qed.
(** Both cannot be. *)
Lemma obst_gives x fin rows : forall dyn gs, rows_give x dyn rows gs -> (fin = None \/ above_ends x rows) -> obst x dyn rows fin -> False.
Proof.
  intros dyn gs G EN [(a & y & b & E & N & D & F) | (e & -> & N)].
  - clear EN. revert dyn gs G F N. revert rows E. induction a as [|z a IH]; intros rows -> dyn gs G F N; cbn [app] in G.
    + cbn [lists_above existsb] in F. rewrite orb_false_r in F. inversion G; subst; try contradiction.
      * eapply fails_gives; eassumption.
      * eapply fails_gives; eassumption.
      * eapply fails_ends; eassumption.
    + assert (N' : forall w, In w a -> data_row w -> ~ row_ends x w) by (intros w I; apply N; right; exact I).
      cbn [lists_above existsb] in F. inversion G; subst.
      * eapply (IH _ eq_refl); [eassumption | | exact N'].
        replace (contains_th (y_row z)) with true in F by (symmetry; apply not_false_iff_true; rewrite contains_th_children; assumption).
        cbn [andb] in F. rewrite <- orb_assoc. exact F.
      * eapply (IH _ eq_refl); [eassumption | | exact N'].
        replace (contains_th (y_row z)) with false in F by (symmetry; apply contains_th_children; assumption). exact F.
      * eapply (IH _ eq_refl); [eassumption | | exact N'].
        replace (contains_th (y_row z)) with false in F by (symmetry; apply contains_th_children; assumption). exact F.
      * apply (N z); [left; reflexivity | assumption | assumption].
  - destruct EN as [EN|(z & I & D & R)]; [discriminate | exact (N z I D R)].
Qed.

(** ** The rows of a value table *)
Lemma value_cells_fun x row k c k' c' : value_cells x row k c -> value_cells x row k' c' -> k = k' /\ c = c'.
Proof. intros [A B] [C D]. split; congruence. Qed.
Lemma overridden_not ov fig v l : overridden ov fig v l -> not_overridden ov fig v -> False.
Proof. intros O N. apply override_some in O. apply override_none in N. congruence. Qed.
Lemma overridden_fun ov fig v l l' : overridden ov fig v l -> overridden ov fig v l' -> l = l'.
Proof. intros O O'. apply override_some in O, O'. congruence. Qed.
Ltac same_values :=
  match goal with
  | H : value_cells ?x ?r _ _, H' : value_cells ?x ?r _ _ |- _ =>
      destruct (value_cells_fun _ _ _ _ _ _ H H') as (-> & ->); clear H'
  | H : forall k c, ~ value_cells ?x ?r k c, H' : value_cells ?x ?r _ _ |- _ => destruct (H _ _ H')
  end.
Lemma vrow_gives_fun ov x y o o' : vrow_gives ov x y o -> vrow_gives ov x y o' -> o = o'.
Proof.
  intros H H'. destruct H, H'; repeat same_values; try contradiction; try reflexivity;
    try (exfalso; match goal with E : lower _ = _ ++ _, N : forall u, lower _ <> _ |- _ => exact (N _ E) end);
    try (exfalso; eapply overridden_not; eassumption).
  - do 2 f_equal; [eapply overridden_fun | eapply brief_fun]; eassumption.
  - match goal with A : label_cell_text _ _ ?s, B : label_cell_text _ _ ?s' |- _ => pose proof (label_cell_fun _ _ _ _ A B); subst end.
    do 2 f_equal; [eapply value_label_fun | eapply brief_fun]; eassumption.
Qed.
Lemma vends_gives ov x y o : vrow_ends x y -> vrow_gives ov x y o -> False.
Proof.
  intros [NC (u & E)] G. destruct G; repeat same_values; try contradiction;
    try (match goal with N : forall u, lower _ <> _ |- _ => eapply N; eassumption end).
  rewrite H0 in E. discriminate.
Qed.
Lemma values_determined ov x rows : forall fs fs', vrows_give ov x rows fs -> vrows_give ov x rows fs' -> fs = fs'.
Proof.
  induction rows as [|y rows IH]; intros fs fs' H H'; inversion H; subst; inversion H'; subst; try contradiction; try reflexivity;
    try (exfalso; eapply vends_gives; [split; [eassumption | eexists; eassumption] | eassumption]);
    try (eapply IH; eassumption);
    repeat match goal with A : vrow_gives _ _ _ ?o, B : vrow_gives _ _ _ ?o' |- _ =>
      pose proof (vrow_gives_fun _ _ _ _ _ A B); clear B end; try discriminate.
  match goal with H : Some _ = Some _ |- _ => injection H as -> end. f_equal. eapply IH; eassumption.
Qed.

Lemma label_elem_none x row : label_elem x row = None ->
  forall td, nth_error (children t_td row) (x_label x) = Some td -> children t_p td = [].
Proof.
  unfold label_elem, nth_child. intros H td E. rewrite E in H. destruct (children t_p td); [reflexivity | discriminate].
Qed.
Lemma label_elem_some x row p : label_elem x row = Some p ->
  exists td, nth_error (children t_td row) (x_label x) = Some td /\ children t_p td <> [].
Proof.
  unfold label_elem, nth_child. destruct (nth_error (children t_td row) (x_label x)) as [td|]; [|discriminate].
  intros H. exists td. split; [reflexivity|]. intros E. rewrite E in H. discriminate.
Qed.
Lemma value_label_exn x row v k c f e f' t : x_fig x <> [] -> value_cells x row k c ->
  extract_value_label x row v c f = (Exn e, f', t) ->
  forall td, nth_error (children t_td row) (x_label x) = Some td -> children t_p td = [].
Proof.
  intros Hx [_ VC] H. unfold extract_value_label, finish_value_label in H.
  assert (FN : forall l f e f' t, (validate_label (normalize_label (rearrange_num_label l)) (x_fig x) v ;; ret (normalize_label (rearrange_num_label l))) f = (Exn e, f', t) -> False).
  { intros l g e0 g' t0 B. apply bind_exn_inv in B as [(? & ? & B)|(? & ? & ? & ? & _ & B)]; [eapply validate_exn; eassumption | discriminate]. }
  destruct (Nat.eqb_spec (x_content x) (x_label x)) as [E|NE]; cbn [negb] in H.
  - destruct (extract_content c) as [text|] eqn:EC.
    + exfalso. destruct (seqb _ _); [discriminate|]. apply bind_exn_inv in H as [(? & ? & H)|(? & ? & ? & ? & _ & H)]; [|eapply FN; exact H].
      destruct (grp_nonempty _ _); [discriminate|]. apply bind_exn_inv in H as [(? & ? & H)|(? & ? & ? & ? & _ & H)]; [eapply issue_exn; eassumption | discriminate].
    + intros td. rewrite <- E, VC. intros [= <-]. unfold extract_content, nth_child in EC. destruct (children t_p c); [reflexivity | discriminate].
  - apply bind_exn_inv in H as [(? & ? & H)|(? & ? & ? & ? & _ & H)].
    + unfold extract_label_dedicated in H. destruct (label_elem x row) as [p|] eqn:LE; [|exact (label_elem_none _ _ LE)]. exfalso.
      destruct (seqb _ _); [discriminate|]. destruct (split1 58 _) as [h [u|]];
        (apply bind_exn_inv in H as [(? & ? & H)|(? & ? & ? & ? & _ & H)]; [|discriminate]); [discriminate | eapply issue_exn; eassumption].
    + exfalso. destruct (seqb _ _); [discriminate | eapply FN; exact H].
Qed.
Lemma no_label_reads x row s :
  (forall td, nth_error (children t_td row) (x_label x) = Some td -> children t_p td = []) -> label_cell_text x row s -> False.
Proof. intros N (td & p & ps & T & C & _). rewrite (N td T) in C. discriminate. Qed.
Lemma vrow_exn ov x y f e f' t : x_fig x <> [] -> vrow_step quiet ov x y f = (Exn e, f', t) -> vrow_fails ov x y.
Proof.
  intros Hx. unfold vrow_step. destruct (value_cells_dec x (y_row y)) as [(k & c & -> & -> & VC) | [NM VC]].
  - destruct (seqb_spec (lower (to_text k)) ELLIPSIS) as [E|NE]; [discriminate|]. intros H.
    apply bind_exn_inv in H as [(? & ? & H)|(? & ? & ? & ? & _ & H)]; [|unfold bind in H; rewrite sub_quiet in H; discriminate].
    destruct (override_of ov (x_fig x) (lower (to_text k))) as [l|] eqn:OV.
    + apply bind_exn_inv in H as [(? & ? & H)|(? & ? & ? & ? & _ & H)]; [destruct (issue_exn _ _ _ _ _ _ _ _ Hx H) | discriminate].
    + apply override_none in OV. eapply vx_label; try eassumption. eapply value_label_exn; eassumption.
  - destruct (key_elem x (y_row y)), (content_elem x (y_row y)); [destruct NM | | |];
      (destruct (startswith ELLIPSIS _); [discriminate|]; destruct (startswith (utf8 "notes:") _); discriminate).
Qed.
Lemma vfails_gives ov x y o : vrow_fails ov x y -> vrow_gives ov x y o -> False.
Proof.
  intros [k c VC NE NO NL] G. destruct G; repeat same_values; try contradiction.
  - eapply overridden_not; eassumption.
  - eapply no_label_reads; eassumption.
Qed.
Lemma vfails_ends ov x y : vrow_fails ov x y -> vrow_ends x y -> False.
Proof. intros [k c VC NE NO NL] [NC _]. exact (NC _ _ VC). Qed.
Lemma vrow_total ov x y f : x_fig x <> [] -> exists r t, vrow_step quiet ov x y f = (r, f, t) /\ r <> OutOfFuel.
Proof.
  intros Hx. destruct (vrow_follows ov x y Hx) as (s & fin & [NF F] & _). destruct (exec_quiet s fin f) as (t & E).
  exists fin, t. split; [|exact NF]. change quiet with (fun (_ : meta) (_ : elem) => ret tt). rewrite F. exact E.
Qed.
Definition vabove_ends (x : xctx) (a : list yrow) : Prop := exists y, In y a /\ data_row y /\ vrow_ends x y.
Definition vobst (ov : overrides) (x : xctx) (rows : list yrow) (fin : option exn) : Prop :=
  (exists a y b, rows = a ++ y :: b /\ (forall z, In z a -> data_row z -> ~ vrow_ends x z) /\ data_row y /\ vrow_fails ov x y)
  \/ (exists e, fin = Some e /\ forall z, In z rows -> data_row z -> ~ vrow_ends x z).
Lemma vobst_cons ov x y rows fin : (data_row y -> ~ vrow_ends x y) -> vobst ov x rows fin -> vobst ov x (y :: rows) fin.
Proof.
  intros NE [(a & z & b & -> & N & D & F) | (e & -> & N)].
  - left. exists (y :: a), z, b. split; [reflexivity|]. split; [intros w [<-|I]; [exact NE | exact (N w I)]|]. split; [exact D | exact F].
  - right. exists e. split; [reflexivity|]. intros w [<-|I]; [exact NE | exact (N w I)].
Qed.
Lemma vrun_quiet ov x fin : x_fig x <> [] -> forall rows fields f,
  (exists gs t, vrun_rows quiet ov x rows fin fields f = (Ok (fields ++ gs), f, t) /\ vrows_give ov x rows gs
     /\ (fin = None \/ vabove_ends x rows))
  \/ (exists e t, vrun_rows quiet ov x rows fin fields f = (Exn e, f, t) /\ vobst ov x rows fin).
Proof.
  intros Hx. induction rows as [|y rest IH]; intros fields f.
  - destruct fin as [e|]; cbn [vrun_rows].
    + right. exists e, []. split; [reflexivity|]. right. exists e. split; [reflexivity|]. intros z [].
    + left. exists [], []. rewrite app_nil_r. split; [reflexivity|]. split; [constructor | auto].
  - cbn [vrun_rows]. destruct (contains_th (y_row y)) eqn:TH.
    + assert (HT : children t_th (y_row y) <> []) by (exact (header_not y TH)).
      destruct (IH fields f) as [(gs & t & E & G & EN) | (e & t & E & O)].
      * left. exists gs, t. split; [exact E|]. split; [apply vt_header; assumption|].
        destruct EN as [EN|(z & I & D & R)]; [left; exact EN | right; exists z; split; [right; exact I | auto]].
      * right. exists e, t. split; [exact E|]. apply vobst_cons; [intros D; destruct (header_not y TH D) | exact O].
    + apply contains_th_children in TH.
      destruct (vrow_total ov x y f Hx) as (r & t1 & RS & NF). destruct r as [o|e|]; [| |destruct (NF eq_refl)].
      * pose proof (vrow_step_inv _ _ _ _ _ _ _ _ Hx RS) as RI.
        assert (K : forall fields' g, (o = VNone /\ fields' = fields /\ g = [] \/ exists fld, o = VField fld /\ fields' = fields ++ [fld] /\ g = [fld]) ->
          (exists gs t, (let '(r, f2, t2) := vrun_rows quiet ov x rest fin fields' f in (r, f2, t1 ++ t2)) = (Ok (fields ++ gs), f, t) /\ vrows_give ov x (y :: rest) gs /\ (fin = None \/ vabove_ends x (y :: rest)))
          \/ (exists e t, (let '(r, f2, t2) := vrun_rows quiet ov x rest fin fields' f in (r, f2, t1 ++ t2)) = (Exn e, f, t) /\ vobst ov x (y :: rest) fin)).
        { intros fields' g C. destruct (IH fields' f) as [(gs & t & E & G & EN) | (e & t & E & O)]; rewrite E.
          - left. exists (g ++ gs), (t1 ++ t). split; [|split].
            + destruct C as [(-> & -> & ->) | (fld & -> & -> & ->)]; [reflexivity | rewrite <- app_assoc; reflexivity].
            + destruct C as [(-> & -> & ->) | (fld & -> & -> & ->)]; [apply vt_nothing; assumption | apply vt_field; [assumption | exact (proj1 RI) | assumption]].
            + destruct EN as [EN|(z & I & D & R)]; [left; exact EN | right; exists z; split; [right; exact I | auto]].
          - right. exists e, (t1 ++ t). split; [reflexivity|]. apply vobst_cons; [|exact O]. intros _ VE.
            destruct C as [(-> & -> & ->) | (fld & -> & -> & ->)]; [exact (vends_gives _ _ _ _ VE RI) | exact (vends_gives _ _ _ _ VE (proj1 RI))]. }
        unfold bind. rewrite RS. destruct o as [fld| |].
        -- apply (K (fields ++ [fld]) [fld]). right. eauto.
        -- apply (K fields []). left. auto.
        -- left. exists [], (t1 ++ []). rewrite app_nil_r. split; [reflexivity|]. destruct RI as [NC (u & EU)]. split; [eapply vt_stop; eassumption|].
           right. exists y. split; [left; reflexivity | split; [exact TH | split; eauto]].
      * right. exists e, t1. unfold bind. rewrite RS. split; [reflexivity|]. left. exists [], y, rest. split; [reflexivity|].
        split; [intros z []|]. split; [exact TH|]. eapply vrow_exn; eassumption.
Qed.
Lemma vobst_gives ov x fin rows : forall gs, vrows_give ov x rows gs -> (fin = None \/ vabove_ends x rows) -> vobst ov x rows fin -> False.
Proof.
  intros gs G EN [(a & y & b & E & N & D & F) | (e & -> & N)].
  - clear EN. revert gs G N. revert rows E. induction a as [|z a IH]; intros rows -> gs G N; cbn [app] in G.
    + inversion G; subst; try contradiction.
      * eapply vfails_gives; eassumption.
      * eapply vfails_gives; eassumption.
      * eapply vfails_ends; [eassumption|]. split; eauto.
    + assert (N' : forall w, In w a -> data_row w -> ~ vrow_ends x w) by (intros w I; apply N; right; exact I).
      inversion G; subst; try (eapply (IH _ eq_refl); eassumption).
      apply (N z); [left; reflexivity | assumption | split; eauto].
  - destruct EN as [EN|(z & I & D & R)]; [discriminate | exact (N z I D R)].
Qed.
