(** What the run of one figure looks like. *)
From Coq Require Import NArith ZArith List Bool String Lia ZifyBool ZifyN.
From Verif Require Import PyTables PyStr PyStrFacts Regex Regexes Xml Json Lint RowIter Helpers Extract Document
  MFacts SpecText SpecFields SpecLabel SpecHeader SpecRows SpecTable SpecDoc
  RangeProofs LabelProofs ValidateProofs RowProofs HeaderProofs TableProofs SizeProofs Prop_Header DocProofs DocFlow SpecNames NameProofs CellRead.
Import ListNotations.
Local Open Scope list_scope.
Local Open Scope N_scope.
Local Open Scope m_scope.

(** ** Counting entries *)
Lemma of_code_app c a b : of_code c (a ++ b) = of_code c a ++ of_code c b.
Proof. apply filter_app. Qed.
Lemma errors_app a b : errors (a ++ b) = errors a ++ errors b.
Proof. unfold errors. rewrite lints_of_app. apply of_code_app. Qed.

Definition coded (t : list event) (c : code) : list lint := of_code c (lints_of t).
Lemma coded_app a b c : coded (a ++ b) c = coded a c ++ coded b c.
Proof. unfold coded. rewrite lints_of_app. apply of_code_app. Qed.
Lemma coded_nil t c : (forall l, In (EvLint l) t -> l_code l <> c) -> coded t c = [].
Proof.
  intros H. unfold coded, of_code. destruct (filter _ _) as [|l r] eqn:E; [reflexivity|].
  assert (I : In l (l :: r)) by (left; reflexivity). rewrite <- E in I. apply filter_In in I as [I1 I2].
  apply In_lints_of in I1. destruct (H l I1). destruct (l_code l), c; try discriminate; reflexivity.
Qed.
Lemma errors_coded t : errors t = coded t T1000. Proof. reflexivity. Qed.

Lemma header_lints_coded m t c : header_lints m t -> c <> T1006 -> coded t c = [].
Proof. intros H N. apply coded_nil. intros l I. destruct (H _ I) as (l' & [= <-] & -> & _). congruence. Qed.
Lemma header_lints_ents m t : header_lints m t -> ents_of t = [].
Proof.
  induction t as [|e t IH]; intros H; [reflexivity|]. destruct (H e) as (l & -> & _); [left; reflexivity|]. cbn.
  apply IH. intros e' H'. apply H. right. exact H'.
Qed.
Lemma own_lints_coded x t c : own_lints x t -> ~ In c [R1001; R1002; L1000; L1003; L1004; L1007] -> coded t c = [].
Proof. intros H N. apply coded_nil. intros l I E. destruct (H _ I) as (l' & [= <-] & _ & I'). subst. exact (N I'). Qed.
Lemma own_lints_ents x t : own_lints x t -> ents_of t = [].
Proof.
  induction t as [|e t IH]; intros H; [reflexivity|]. destruct (H e) as (l & -> & _); [left; reflexivity|]. cbn.
  apply IH. intros e' H'. apply H. right. exact H'.
Qed.
Lemma checked_coded x evs ent c : checked x evs ent -> ~ In c check_codes -> coded evs c = [].
Proof.
  intros [_ H] N. apply coded_nil. intros l I E. destruct (H _ I) as (l' & [= <-] & K). subst. apply N.
  revert K. unfold entity_check. destruct (en_body ent); intros []; cbn; tauto.
Qed.
Lemma checked_ents x evs ent : checked x evs ent -> ents_of evs = [].
Proof.
  intros [_ H]. induction evs as [|e t IH]; [reflexivity|]. destruct (H e) as (l & -> & _); [left; reflexivity|]. cbn.
  apply IH. intros e' H'. apply H. right. exact H'.
Qed.

Lemma events_of_app p a b : events_of p (a ++ b) = events_of p a ++ events_of p b.
Proof. apply flat_map_app. Qed.
Lemma events_coded p x s c : own_steps x s -> ~ In c [R1001; R1002; L1000; L1003; L1004; L1007] ->
  coded (events_of p s) c = flat_map (fun n => coded (out p n) c) (nests s).
Proof.
  intros H N. induction s as [|[evs|m tbl] s IH]; [reflexivity| |]; unfold events_of; cbn [flat_map nests]; rewrite coded_app.
  - rewrite (own_lints_coded x evs); [|apply H; left; reflexivity | exact N]. cbn [app]. apply IH. intros e He. apply H. right. exact He.
  - cbn [app flat_map]. f_equal. apply IH. intros e He. apply H. right. exact He.
Qed.
Lemma events_ents p x s : own_steps x s -> ents_of (events_of p s) = flat_map (fun n => ents_of (out p n)) (nests s).
Proof.
  intros H. induction s as [|[evs|m tbl] s IH]; [reflexivity| |]; unfold events_of; cbn [flat_map nests]; rewrite ents_of_app.
  - rewrite (own_lints_ents x evs); [|apply H; left; reflexivity]. cbn [app]. apply IH. intros e He. apply H. right. exact He.
  - cbn [app flat_map]. f_equal. apply IH. intros e He. apply H. right. exact He.
Qed.
Lemma flat_map_nil {A B} (f : A -> list B) l : (forall a, In a l -> f a = []) -> flat_map f l = [].
Proof. induction l as [|a l IH]; intros H; [reflexivity|]. cbn. rewrite (H a), IH; [reflexivity| |left; reflexivity]. intros; apply H; right; assumption. Qed.

(** ** The figure split off by an extractor *)
Lemma handled_override P m tbl x prefix fig' : handled P m tbl x -> ec_handler (x_cls x) = HSplit prefix fig' ->
  lookup_fig (p_fig_overrides P) (m_fig m) = Some (x_cls x).
Proof.
  intros (_ & hs & _ & CH & _) E. unfold chosen in CH. destruct (lookup_fig _ _); [congruence|].
  destruct CH as [[C _] | [[C _] | [C _]]]; rewrite C in E; discriminate.
Qed.
Lemma extra_meta P m tbl x ex : handled P m tbl x -> extra_of x tbl ex ->
  ex = [] \/ exists prefix fig' title tbl', ec_handler (x_cls x) = HSplit prefix fig' /\ ex = [(mkMeta title fig' None, tbl')]
    /\ (esize tbl' < esize tbl)%nat.
Proof.
  intros H [|y m' tbl' Hy E]; [left; reflexivity | right]. pose proof (split_size _ _ _ _ E) as ES. subst tbl'.
  apply row_iter_sibs in Hy. unfold row_err_handler in E. destruct (ec_handler (x_cls x)) as [|prefix fig'|suf].
  - destruct (children t_td (y_row y)) as [|? [|? ?]]; discriminate.
  - destruct (startswith _ _); [|discriminate]. injection E as <-. exists prefix, fig'. eexists _, _. eauto.
  - destruct (endswith _ _); discriminate.
Qed.

Lemma tame_sane P : tame P -> sane P.
Proof. intros H fig c prefix fig' I E. eapply H; eassumption. Qed.

(** ** Without --skip-figure-on-error *)
Definition verdict (P : parser) (m : meta) (tbl : elem) (o : res unit * bool * list event) : Prop :=
  let '(r, f', t) := o in
  coded t T1008 = []
  /\ ((r = Ok tt /\ f' = false /\ errors t = [])
      \/ (exists e t' l, r = Exn e /\ f' = true /\ t = t' ++ [EvLint l] /\ l_code l = T1000 /\ errors t' = [])
      \/ (r = Exn ERuntime /\ f' = false /\ errors t = [] /\ mismatch P m tbl)).

Inductive shape (P : parser) (m : meta) (tbl : elem) (p : meta -> elem -> M unit) : res unit -> list event -> Prop :=
| sh_unsupported t0 hs :
    header_lints m t0 -> lookup_fig (p_fig_overrides P) (m_fig m) = None -> table_headers tbl hs -> unsupported hs ->
    shape P m tbl p (Ok tt) (t0 ++ [EvLint (lint_T1007 m hs)])
| sh_mismatch t0 :
    header_lints m t0 -> mismatch P m tbl -> shape P m tbl p (Exn ERuntime) t0
| sh_complete t0 x s evs ent :
    header_lints m t0 -> handled P m tbl x -> own_steps x s -> table_figs x (fst (row_iter tbl)) (nests s) ->
    Forall (fun n => outcome p n = Ok tt) (nests s) -> checked x evs ent ->
    shape P m tbl p (Ok tt) (t0 ++ events_of p s ++ evs ++ [EvEnt ent])
| sh_split t0 x s evs ent m' tbl' tail r :
    header_lints m t0 -> handled P m tbl x -> own_steps x s -> table_figs x (fst (row_iter tbl)) (nests s) ->
    Forall (fun n => outcome p n = Ok tt) (nests s) -> checked x evs ent -> splits P (m_fig m) ->
    extra_of x tbl [(m', tbl')] -> outcome p (m', tbl') = r ->
    (r = Ok tt -> tail = []) ->
    (forall e, r = Exn e -> tail = [] /\ (List.length (errors (out p (m', tbl'))) = 1)%nat
                         \/ tail = [EvLint (lint_T1000 m)] /\ errors (out p (m', tbl')) = []) ->
    shape P m tbl p r (t0 ++ events_of p s ++ (evs ++ [EvEnt ent]) ++ out p (m', tbl') ++ tail)
| sh_own_error t0 x s a b e :
    header_lints m t0 -> handled P m tbl x -> own_steps x s -> fst (row_iter tbl) = a ++ b -> table_figs x a (nests s) ->
    Forall (fun n => outcome p n = Ok tt) (nests s) ->
    shape P m tbl p (Exn e) (t0 ++ events_of p s ++ [EvLint (lint_T1000 m)])
| sh_nested_error t0 x s s1 m1 tbl1 s2 a b e tail :
    header_lints m t0 -> handled P m tbl x -> own_steps x s -> fst (row_iter tbl) = a ++ b -> table_figs x a (nests s) ->
    s = s1 ++ SNest m1 tbl1 :: s2 -> Forall (fun n => outcome p n = Ok tt) (nests s1) ->
    outcome p (m1, tbl1) = Exn e ->
    (tail = [] /\ (List.length (errors (out p (m1, tbl1))) = 1)%nat \/ tail = [EvLint (lint_T1000 m)] /\ errors (out p (m1, tbl1)) = []) ->
    shape P m tbl p (Exn e) (t0 ++ events_of p s1 ++ out p (m1, tbl1) ++ tail).

Lemma nests_snests l : nests (snests l) = l.
Proof. induction l as [|[m t] l IH]; [reflexivity|]. cbn. f_equal. exact IH. Qed.

(** Case split of the last part of a list of steps. *)
Lemma split_last (s s1 s2 : list step) (m : meta) (tbl : elem) tl :
  s ++ tl = s1 ++ SNest m tbl :: s2 ->
  (exists s3, s = s1 ++ SNest m tbl :: s3) \/ (exists u v, s1 = s ++ u /\ tl = u ++ SNest m tbl :: v).
Proof.
  revert s1. induction s as [|a s IH]; intros s1 E.
  - right. exists s1, s2. split; [reflexivity | exact E].
  - destruct s1 as [|b s1].
    + injection E as -> _. left. exists s. reflexivity.
    + injection E as -> E. destruct (IH _ E) as [(s3 & ->) | (u & v & -> & ->)]; [left; exists s3; reflexivity | right; exists u, v; auto].
Qed.

Lemma noskip_shape P : sane P -> forall n m tbl, (esize tbl < n)%nat -> m_fig m <> [] ->
  verdict P m tbl (parse_figure (with_skip false P) m tbl false)
  /\ shape P m tbl (parse_figure (with_skip false P)) (outcome (parse_figure (with_skip false P)) (m, tbl)) (out (parse_figure (with_skip false P)) (m, tbl)).
Proof.
  intros SP. set (p := parse_figure (with_skip false P)).
  assert (FL : forall n f, m_fig (fst n) <> [] -> p (fst n) (snd n) f = p (fst n) (snd n) false).
  { intros n f H. apply figure_flag, H. }
  induction n as [|n IH]; intros m tbl Hs Hm; [lia|].
  assert (IV : forall k, m_fig (fst k) <> [] -> (esize (snd k) < esize tbl)%nat -> verdict P (fst k) (snd k) (p (fst k) (snd k) false)).
  { intros k K1 K2. apply IH; [lia | exact K1]. }
  unfold outcome, out. cbn [fst snd].
  destruct (figure_flow P m tbl Hm) as (t0 & HL & [(hs & LK & TH & US & E) | [(MM & E) | (x & HD & E)]]);
    specialize (E false false); fold p in E; rewrite E; cbn [fst snd].
  - split; [|apply sh_unsupported; assumption]. split.
    + rewrite coded_app, (header_lints_coded _ _ _ HL); [reflexivity | discriminate].
    + left. split; [reflexivity|]. split; [reflexivity|]. rewrite errors_coded, coded_app, (header_lints_coded _ _ _ HL); [reflexivity | discriminate].
  - split; [|apply sh_mismatch; assumption]. split.
    + apply (header_lints_coded _ _ _ HL). discriminate.
    + right. right. split; [reflexivity|]. split; [reflexivity|]. split; [|exact MM]. rewrite errors_coded. apply (header_lints_coded _ _ _ HL). discriminate.
  - assert (Hx : x_fig x <> []) by (unfold x_fig; rewrite (proj1 HD); exact Hm).
    assert (HF : x_fig x = m_fig m) by (unfold x_fig; rewrite (proj1 HD); reflexivity).
    clear E.
    destruct (call_follows P x tbl Hx) as (s & a & b & OS & RE & TF & CF).
    assert (HN : Forall (nested_ok x tbl) (nests s)).
    { eapply table_figs_nested; [exact TF|]. intros y Hy. rewrite RE. apply in_or_app. left. exact Hy. }
    assert (HV : Forall (fun k => m_fig (fst k) <> [] /\ verdict P (fst k) (snd k) (p (fst k) (snd k) false)) (nests s)).
    { eapply Forall_impl; [|exact HN]. intros k [(key & K1) K2].
      assert (KF : m_fig (fst k) <> []) by (rewrite K1; apply sub_meta_fig). split; [exact KF | apply IV; assumption]. }
    assert (NC : forall k c, (c = T1008 \/ (c = T1000 /\ outcome p k = Ok tt)) -> verdict P (fst k) (snd k) (p (fst k) (snd k) false) -> coded (out p k) c = []).
    { intros k c Hc V. unfold outcome in Hc. unfold out. destruct (p (fst k) (snd k) false) as [[r f'] t]. cbn [fst snd] in *.
      destruct V as [V1 V2]. destruct Hc as [-> | [-> Hr]]; [exact V1|].
      destruct V2 as [(_ & _ & V2) | [(e & t' & l & V2 & _) | (V2 & _)]]; [exact V2 | congruence | congruence]. }
    assert (NE : forall s', own_steps x s' -> Forall (fun k => m_fig (fst k) <> [] /\ verdict P (fst k) (snd k) (p (fst k) (snd k) false)) (nests s') ->
       Forall (fun n => outcome p n = Ok tt) (nests s') -> errors (events_of p s') = [] /\ coded (events_of p s') T1008 = []).
    { intros s' OS' HV' HO'. rewrite Forall_forall in HV', HO'. rewrite errors_coded.
      split; (rewrite (events_coded p x s'); [|exact OS' | cbn; intuition discriminate]); apply flat_map_nil; intros k Hk; apply NC;
        [right; split; [reflexivity | apply HO', Hk] | apply HV', Hk | left; reflexivity | apply HV', Hk]. }
    assert (HH : forall c, c <> T1006 -> coded t0 c = []) by (intros c Hc; eapply header_lints_coded; eassumption).
    (* one nested figure that did not complete *)
    assert (BR : forall k, m_fig (fst k) <> [] -> verdict P (fst k) (snd k) (p (fst k) (snd k) false) -> outcome p k <> Ok tt ->
       exists e, outcome p k = Exn e /\
        ((snd (fst (p (fst k) (snd k) false)) = true /\ (List.length (errors (out p k)) = 1)%nat /\
            exists t' l, out p k = t' ++ [EvLint l] /\ l_code l = T1000 /\ errors t' = [])
         \/ (snd (fst (p (fst k) (snd k) false)) = false /\ errors (out p k) = [] /\ mismatch P (fst k) (snd k)))).
    { intros k K1 V. unfold outcome, out. destruct (p (fst k) (snd k) false) as [[r f'] t]. cbn [fst snd]. intros NO.
      destruct V as [V1 [(-> & _) | [(e & t' & l & -> & -> & -> & L1 & L2) | (-> & -> & V2 & V3)]]]; [congruence | |].
      - exists e. split; [reflexivity|]. left. split; [reflexivity|]. split; [|eauto].
        rewrite errors_app, L2. cbn. unfold errors, of_code. cbn. rewrite L1. reflexivity.
      - exists ERuntime. split; [reflexivity|]. right. auto. }
    assert (ET : errors [EvLint (lint_T1000 m)] = [lint_T1000 m]) by reflexivity.
    set (N := with_skip false P) in *.
    assert (BK : forall c s1 m1 tbl1 s2, s = s1 ++ SNest m1 tbl1 :: s2 -> Forall (fun n => outcome p n = Ok tt) (nests s1) -> outcome p (m1, tbl1) <> Ok tt ->
       c false = (match outcome p (m1, tbl1) with Exn e => Exn e | _ => OutOfFuel end, snd (fst (p m1 tbl1 false)), events_of p s1 ++ out p (m1, tbl1)) ->
       verdict P m tbl (let '(r, f', t) := catch c (on_fig_error N m) false in (r, f', t0 ++ t))
       /\ shape P m tbl p (fst (fst (let '(r, f', t) := catch c (on_fig_error N m) false in (r, f', t0 ++ t))))
            (snd (let '(r, f', t) := catch c (on_fig_error N m) false in (r, f', t0 ++ t)))).
    { intros c s1 m1 tbl1 s2 ES D1 D2 D3. unfold catch. rewrite D3. subst s. rewrite nests_app in HV. apply Forall_app in HV as [HV1 HV2].
      change (nests (SNest m1 tbl1 :: s2)) with ((m1, tbl1) :: nests s2) in HV2.
      apply Forall_inv in HV2 as [K1 K2]. destruct (BR _ K1 K2 D2) as (e1 & OE & BB). rewrite OE. cbn [fst snd] in BB.
      rewrite (handler_run _ _ _ _ Hm). cbn [fst snd p_skip with_skip N].
      destruct (NE s1) as [N1 N2]; [intros ? ?; apply OS, in_or_app; left; assumption | exact HV1 | exact D1 |].
      assert (N3 : coded (out p (m1, tbl1)) T1008 = []) by (apply NC; [left; reflexivity | exact K2]).
      replace (match m_parent m with Some _ => Exn e1 | None => Exn e1 end) with (Exn e1 : res unit) by (destruct (m_parent m); reflexivity).
      destruct BB as [(-> & BL & t' & l & BT & BC & BE) | (-> & BE & _)].
      - rewrite app_nil_r. split.
        + split; [rewrite !coded_app, N2, N3, HH; [reflexivity | discriminate]|].
          right. left. exists e1, (t0 ++ events_of p s1 ++ t'), l. split; [reflexivity|]. split; [reflexivity|].
          split; [rewrite BT, <- !app_assoc; reflexivity|]. split; [exact BC|].
          rewrite !errors_app, N1, BE, errors_coded, HH; [reflexivity | discriminate].
        + replace (events_of p s1 ++ out p (m1, tbl1)) with (events_of p s1 ++ out p (m1, tbl1) ++ []) by (rewrite app_nil_r; reflexivity).
          eapply sh_nested_error; try eassumption; [reflexivity | left; auto].
      - rewrite <- app_assoc. split.
        + split; [rewrite !coded_app, N2, N3, HH; [reflexivity | discriminate]|].
          right. left. exists e1, (t0 ++ events_of p s1 ++ out p (m1, tbl1)), (lint_T1000 m). split; [reflexivity|]. split; [reflexivity|].
          split; [rewrite <- !app_assoc; reflexivity|]. split; [reflexivity|].
          rewrite !errors_app, N1, BE, errors_coded, HH; [reflexivity | discriminate].
        + eapply sh_nested_error; try eassumption; [reflexivity | right; auto]. }
    assert (FD : forall f', (false = false -> Forall (fun n => snd (fst (p (fst n) (snd n) false)) = false) (nests s) -> f' = false) ->
       Forall (fun n => outcome p n = Ok tt) (nests s) -> f' = false).
    { intros f' D4 D1. apply D4; [reflexivity|]. rewrite Forall_forall in HV, D1 |- *. intros k Hk. destruct (HV k Hk) as [_ V]. specialize (D1 k Hk).
      unfold outcome in D1. destruct (p (fst k) (snd k) false) as [[r f2] t]. cbn in *. destruct V as [_ [(_ & -> & _) | [(? & ? & ? & -> & _) | (-> & _)]]]; congruence. }
    destruct CF as [(e & F) | (Eb & evs & ent & ex & F & EX & CK)].
    + destruct (exec_run p s (Exn e : res unit)) as [[D1 D2] | (s1 & m1 & tbl1 & s2 & ES & D1 & D2 & D3)].
      { intros k f Hk. rewrite Forall_forall in HV. apply FL, HV, Hk. }
      * unfold catch. destruct (D2 false) as (f' & D3 & D4). rewrite (proj2 F), D3. rewrite (FD f' D4 D1).
        rewrite (handler_run _ _ _ _ Hm). cbn [fst snd p_skip with_skip N].
        destruct (NE s OS HV D1) as [N1 N2].
        split.
        -- split.
           ++ rewrite !coded_app, N2, HH; [reflexivity | discriminate].
           ++ right. left. exists e, (t0 ++ events_of p s), (lint_T1000 m).
              split; [destruct (m_parent m); reflexivity|]. split; [reflexivity|]. split; [rewrite app_assoc; reflexivity|]. split; [reflexivity|].
              rewrite errors_app, N1, errors_coded, HH; [reflexivity | discriminate].
        -- replace (match m_parent m with Some _ => Exn e | None => Exn e end) with (Exn e : res unit) by (destruct (m_parent m); reflexivity).
           eapply sh_own_error; eassumption.
      * eapply BK; try eassumption. rewrite (proj2 F). apply D3.
    + subst b. rewrite app_nil_r in RE. subst a.
      assert (CB : forall f, call_of P x tbl p f = bind (exec p s (Ok tt)) (fun _ => exec p (SOwn (evs ++ [EvEnt ent]) :: snests ex) (Ok tt)) f).
      { intros f. rewrite (proj2 F). symmetry. apply exec_bind. reflexivity. }
      destruct (exec_run p s (Ok tt)) as [[D1 D2] | (s1 & m1 & tbl1 & s2 & ES & D1 & D2 & D3)].
      { intros k f Hk. rewrite Forall_forall in HV. apply FL, HV, Hk. }
      2: { eapply BK; try eassumption. rewrite CB. unfold bind. rewrite D3. destruct (outcome p (m1, tbl1)) as [[]|e|] eqn:OE; [congruence | reflexivity | reflexivity]. }
      destruct (D2 false) as (f' & D3 & D4). rewrite (FD f' D4 D1) in D3.
      destruct (NE s OS HV D1) as [N1 N2].
      assert (K1 : coded evs T1000 = []).
      { apply (checked_coded _ _ _ _ CK). cbn; intuition discriminate. }
      assert (K2 : coded evs T1008 = []).
      { apply (checked_coded _ _ _ _ CK). cbn; intuition discriminate. }
      unfold catch. rewrite CB. unfold bind at 1. unfold bind at 1. unfold bind at 1. rewrite D3.
      destruct (extra_meta P m tbl x ex HD EX) as [-> | (prefix & fig' & title & tbl' & EH & -> & Sz)].
      * cbn [exec snests map fst snd]. rewrite app_nil_r. split.
        -- split; [rewrite !coded_app, N2, K2, HH; [reflexivity | discriminate]|]. left. split; [reflexivity|]. split; [reflexivity|].
           rewrite !errors_app, N1, !errors_coded, K1, HH; [reflexivity | discriminate].
        -- eapply sh_complete; eassumption.
      * set (m' := mkMeta title fig' None).
        pose proof (handled_override _ _ _ _ _ _ HD EH) as LK.
        assert (F' : fig' <> []).
        { destruct (lookup_In _ _ _ LK) as (f0 & LI). eapply SP; [exact LI | exact EH]. }
        assert (V : verdict P m' tbl' (p m' tbl' false)) by (apply (IV (m', tbl')); [exact F' | exact Sz]).
        assert (SPL : splits P (m_fig m)) by (exists (x_cls x), prefix, fig'; auto).
        cbn [exec snests map fst snd]. unfold bind. fold m'.
        destruct (outcome p (m', tbl')) as [[]|e|] eqn:OE.
        -- assert (N3 : coded (out p (m', tbl')) T1000 = []) by (apply NC; [right; split; [reflexivity | exact OE] | exact V]).
           assert (N4 : coded (out p (m', tbl')) T1008 = []) by (apply NC; [left; reflexivity | exact V]).
           pose proof OE as OE'. unfold outcome in OE'. cbn [fst snd] in OE'.
           assert (OO : out p (m', tbl') = snd (p m' tbl' false)) by reflexivity.
           destruct (p m' tbl' false) as [[r2 f2] t2] eqn:EP. cbn [fst snd] in OE', OO. subst r2 t2. rewrite !app_nil_r. cbn [fst snd].
           assert (f2 = false) as ->.
           { destruct V as [_ [(_ & -> & _) | [(? & ? & ? & ? & _) | (? & _)]]]; congruence. }
           split.
           ++ split; [rewrite !coded_app, N2, K2, N4, HH; [reflexivity | discriminate]|]. left. split; [reflexivity|]. split; [reflexivity|].
              rewrite errors_coded in *. rewrite !coded_app, N1, K1, N3, HH; [reflexivity | discriminate].
           ++ replace (out p (m', tbl')) with (out p (m', tbl') ++ []) by apply app_nil_r.
              eapply sh_split; try eassumption; [reflexivity | discriminate].
        -- destruct (BR (m', tbl') F' V) as (e1 & OE1 & BB); [congruence|]. assert (e1 = e) as -> by congruence. cbn [fst snd] in BB.
           assert (N4 : coded (out p (m', tbl')) T1008 = []) by (apply NC; [left; reflexivity | exact V]).
           pose proof OE as OE'. unfold outcome in OE'. cbn [fst snd] in OE'.
           assert (OO : out p (m', tbl') = snd (p m' tbl' false)) by reflexivity.
           destruct (p m' tbl' false) as [[r2 f2] t2] eqn:EP. cbn [fst snd] in OE', OO, BB. subst r2 t2.
           rewrite (handler_run _ _ _ _ Hm). cbn [fst snd p_skip with_skip N].
           replace (match m_parent m with Some _ => Exn e | None => Exn e end) with (Exn e : res unit) by (destruct (m_parent m); reflexivity).
           destruct BB as [(-> & BL & t' & l & BT & BC & BE) | (-> & BE & _)].
           ++ rewrite app_nil_r. split.
              ** split; [rewrite !coded_app, N2, K2, N4, HH; [reflexivity | discriminate]|].
                 right. left. exists e, (t0 ++ events_of p s ++ (evs ++ [EvEnt ent]) ++ t'), l. split; [reflexivity|]. split; [reflexivity|].
                 split; [rewrite BT, <- !app_assoc; reflexivity|]. split; [exact BC|].
                 rewrite errors_coded in *. rewrite !coded_app, N1, BE, K1, HH; [reflexivity | discriminate].
              ** replace (out p (m', tbl')) with (out p (m', tbl') ++ []) by apply app_nil_r.
                 eapply sh_split; try eassumption; [discriminate | intros ? _; left; auto].
           ++ rewrite <- !app_assoc. split.
              ** split; [rewrite !coded_app, N2, K2, N4, HH; [reflexivity | discriminate]|].
                 right. left. exists e, (t0 ++ events_of p s ++ (evs ++ [EvEnt ent]) ++ out p (m', tbl')), (lint_T1000 m). split; [reflexivity|]. split; [reflexivity|].
                 split; [rewrite <- !app_assoc; reflexivity|]. split; [reflexivity|].
                 rewrite errors_coded in *. rewrite !coded_app, N1, BE, K1, HH; [reflexivity | discriminate].
              ** replace (evs ++ [EvEnt ent] ++ out p (m', tbl') ++ [EvLint (lint_T1000 m)])
                   with ((evs ++ [EvEnt ent]) ++ out p (m', tbl') ++ [EvLint (lint_T1000 m)]) by (rewrite <- !app_assoc; reflexivity).
                 eapply sh_split; try eassumption; [discriminate | intros ? _; right; auto].
        -- exfalso. unfold outcome in OE. cbn [fst snd] in OE. destruct (p m' tbl' false) as [[r2 f2] t2]. cbn in OE. subst r2.
           destruct V as [_ [(? & _) | [(? & ? & ? & ? & _) | (? & _)]]]; congruence.
Qed.

(** ** With --skip-figure-on-error *)
Lemma exec_ext {A} p q s (fin : res A) : (forall n f, In n (nests s) -> p (fst n) (snd n) f = q (fst n) (snd n) f) ->
  forall f, exec p s fin f = exec q s fin f.
Proof.
  induction s as [|[evs|m tbl] s IH]; intros H f; [reflexivity| |]; cbn [exec].
  - rewrite IH; [reflexivity | exact H].
  - apply bind_ext; [apply (H (m, tbl)); left; reflexivity|]. intros _ g. apply IH. intros n h Hn. apply H. right. exact Hn.
Qed.

(** Names of figures: nested ones contain '_'. *)
Definition named (m : meta) : Prop := m_fig m <> [] /\ (m_parent m <> None -> In 95 (m_fig m)).

Lemma sub_meta_named fig key : named (sub_meta fig key).
Proof. split; [apply sub_meta_fig|]. intros _. cbn. apply in_or_app. right. left. reflexivity. Qed.

Lemma lookup_named l fig c : lookup_fig l fig = Some c -> In (fig, c) l.
Proof.
  unfold lookup_fig. destruct (find _ l) as [[f c']|] eqn:F; [|discriminate]. intros [= <-].
  apply find_some in F as [F E]. apply seqb_eq in E. cbn in E. subst. exact F.
Qed.

Lemma skip_run P : tame P -> forall n m tbl, (esize tbl < n)%nat -> named m ->
  let '(r, f', t) := parse_figure (with_skip false P) m tbl false in
  exists r2 f2, parse_figure (with_skip true P) m tbl false = (r2, f2, t)
    /\ (m_parent m <> None -> r2 = r /\ f2 = f')
    /\ (m_parent m = None -> r2 = Ok tt \/ (r2 = Exn ERuntime /\ r = r2 /\ mismatch P m tbl)).
Proof.
  intros TM. pose proof (tame_sane _ TM) as SP.
  set (p := parse_figure (with_skip false P)). set (q := parse_figure (with_skip true P)).
  induction n as [|n IH]; intros m tbl Hs [Hm Hn]; [lia|].
  destruct (figure_flow P m tbl Hm) as (t0 & HL & [(hs & LK & TH & US & E) | [(MM & E) | (x & HD & E)]]).
  - unfold p, q. rewrite !E. eexists _, _. split; [reflexivity|]. split; [auto | left; reflexivity].
  - unfold p, q. rewrite !E. eexists _, _. split; [reflexivity|]. split; [auto | right; auto].
  - pose proof (E true false) as E1. specialize (E false false). fold p in E. fold q in E1. rewrite E, E1.
    destruct (noskip_shape P SP (S (esize tbl)) m tbl) as [V _]; [lia | exact Hm |]. fold p in V. rewrite E in V. clear E E1.
    assert (Hx : x_fig x <> []) by (unfold x_fig; rewrite (proj1 HD); exact Hm).
    destruct (call_follows P x tbl Hx) as (s & a & b & OS & RE & TF & CF).
    assert (HN : Forall (nested_ok x tbl) (nests s)).
    { eapply table_figs_nested; [exact TF|]. intros y Hy. rewrite RE. apply in_or_app. left. exact Hy. }
    assert (EQ : forall k f, In k (nests s) -> q (fst k) (snd k) f = p (fst k) (snd k) f).
    { rewrite Forall_forall in HN. intros k f Hk. destruct (HN k Hk) as [(key & K1) K2].
      unfold p, q. rewrite !(figure_flag _ _ _ f); try (rewrite K1; apply sub_meta_fig).
      fold p q. specialize (IH (fst k) (snd k)). destruct (p (fst k) (snd k) false) as [[r f'] t].
      destruct IH as (r2 & f2 & E & I1 & _); [lia | rewrite K1; apply sub_meta_named |].
      rewrite E. destruct I1 as [-> ->]; [rewrite K1; discriminate | reflexivity]. }
    assert (H0 : forall r1 f1 t1, call_of P x tbl p false = (r1, f1, t1) -> call_of P x tbl q false = (r1, f1, t1) ->
       let '(r, f', t) := (let '(r, f', t) := catch (call_of P x tbl p) (on_fig_error (with_skip false P) m) false in (r, f', t0 ++ t)) in
       exists r2 f2, (let '(r, f', t) := catch (call_of P x tbl q) (on_fig_error (with_skip true P) m) false in (r, f', t0 ++ t)) = (r2, f2, t)
         /\ (m_parent m <> None -> r2 = r /\ f2 = f')
         /\ (m_parent m = None -> r2 = Ok tt \/ (r2 = Exn ERuntime /\ r = r2 /\ mismatch P m tbl))).
    { intros r1 f1 t1 E1 E2. unfold catch in V |- *. rewrite E1 in V |- *. rewrite E2. destruct r1 as [[]|e|].
      - eexists _, _. split; [reflexivity|]. split; [auto | left; reflexivity].
      - rewrite !(handler_run _ _ _ _ Hm). cbn [p_skip with_skip]. eexists _, _. split; [reflexivity|].
        destruct (m_parent m); [split; [auto | discriminate] | split; [congruence | left; reflexivity]].
      - destruct V as [_ [(? & _) | [(? & ? & ? & ? & _) | (? & _)]]]; discriminate. }
    destruct CF as [(e & F) | (Eb & evs & ent & ex & F & EX & CK)].
    + assert (CE : call_of P x tbl q false = call_of P x tbl p false).
      { rewrite !(proj2 F). apply exec_ext. exact EQ. }
      destruct (call_of P x tbl p false) as [[r1 f1] t1] eqn:EC. apply (H0 _ _ _ eq_refl CE).
    + assert (CB : forall o f, call_of P x tbl o f = bind (exec o s (Ok tt)) (fun _ => exec o (SOwn (evs ++ [EvEnt ent]) :: snests ex) (Ok tt)) f).
      { intros o f. rewrite (proj2 F). symmetry. apply exec_bind. reflexivity. }
      pose proof (CB p false) as CP. pose proof (CB q false) as CQ. unfold bind at 1 in CP. unfold bind at 1 in CQ.
      rewrite (exec_ext q p s (Ok tt) EQ false) in CQ.
      destruct (exec p s (Ok tt) false) as [[[[]|e|] f1] t1]; [|apply (H0 _ _ _ CP CQ) | apply (H0 _ _ _ CP CQ)].
      destruct (extra_meta P m tbl x ex HD EX) as [-> | (prefix & fig' & title & tbl' & EH & -> & Sz)].
      * apply (H0 _ _ _ CP CQ).
      * set (m' := mkMeta title fig' None) in *. pose proof (handled_override _ _ _ _ _ _ HD EH) as LK.
        destruct (TM _ _ _ _ (lookup_named _ _ _ LK) EH) as (F1 & F2 & F3).
        assert (PN : m_parent m = None).
        { destruct (m_parent m) eqn:EM; [|reflexivity]. destruct F2. apply Hn. discriminate. }
        cbn [exec snests map fst snd] in CP, CQ. unfold bind in CP, CQ. unfold p in CP. unfold q in CQ.
        rewrite (figure_flag _ m' tbl' f1 F1) in CP. rewrite (figure_flag _ m' tbl' f1 F1) in CQ. fold p in CP. fold q in CQ.
        destruct (noskip_shape P SP (S (esize tbl')) m' tbl') as [V' _]; [lia | exact F1 |]. fold p in V'.
        specialize (IH m' tbl'). destruct (p m' tbl' false) as [[r f'] t] eqn:EP.
        destruct IH as (r2 & f2 & E & _ & I2); [lia | split; [exact F1 | cbn; congruence] |]. specialize (I2 eq_refl).
        assert (NM : ~ mismatch P m' tbl') by (intros (c & hs & M1 & _); cbn in M1; congruence).
        destruct I2 as [-> | (_ & _ & I2)]; [|destruct (NM I2)]. rewrite E in CQ.
        unfold catch. rewrite CP, CQ. destruct V' as [_ [(-> & -> & _) | [(e & t' & l & -> & -> & -> & _) | (_ & _ & _ & V')]]]; [| |destruct (NM V')].
        -- eexists _, _. split; [reflexivity|]. split; [congruence | left; reflexivity].
        -- rewrite (handler_run _ _ _ _ Hm), PN. cbn [p_skip with_skip].
           eexists _, _. split; [rewrite !app_nil_r; reflexivity|]. split; [congruence | left; reflexivity].
Qed.
