(** Proofs for C77: reading a figure. *)
From Coq Require Import NArith ZArith List Bool String Lia ZifyBool ZifyN.
From Verif Require Import PyTables PyStr PyStrFacts Regex Regexes Xml Json Lint RowIter Helpers Extract Document
  RegexFacts MFacts SpecText SpecFields SpecLabel SpecHeader SpecRows SpecTable SpecDoc SpecRun SpecReads SpecIter IterProofs ReadForms
  RangeProofs LabelProofs ValidateProofs RowProofs HeaderProofs TableProofs SizeProofs Prop_Header DocProofs DocFlow DocRuns
  Prop_Table Prop_Doc ReadProofs SpecNames NameProofs CellRead.
Import ListNotations.
Local Open Scope list_scope.
Local Open Scope N_scope.
Local Open Scope m_scope.

(** ** A whole table *)
Lemma call_quiet P x tbl f : x_fig x <> [] ->
  (exists b t, call_of P x tbl quiet f = (Ok tt, f, t) /\ In (EvEnt (mkEntity (x_meta x) b)) t
     /\ table_gives P x tbl b /\ comes_to_end x tbl)
  \/ (exists e t, call_of P x tbl quiet f = (Exn e, f, t) /\ obstacle P x tbl).
Proof.
  intros Hx. unfold call_of. destruct (ec_kind (x_cls x)) as [k|] eqn:EK.
  - unfold struct_call. destruct (row_iter tbl) as [rows fin] eqn:RI. cbn [fst snd].
    destruct (run_quiet x fin Hx rows false [] f) as [(gs & ex & t & E & G & EN) | (e & t & E & O)]; rewrite <- struct_loop_run in E.
    + left. cbn [app]. set (fs := match k with KBits => rev gs | KBytes => gs end).
      destruct (struct_checks x fs f Hx) as (evs & EV & _). exists (BStruct k fs).
      exists (t ++ evs ++ [EvEnt (mkEntity (x_meta x) (BStruct k fs))]). split; [|split; [|split]].
      * unfold bind at 1. rewrite E. cbn [app]. fold fs. unfold bind at 1. rewrite EV. unfold bind, emit. destruct ex as [[m' t']|]; cbn; reflexivity.
      * apply in_or_app; right. apply in_or_app; right. left. reflexivity.
      * apply gives_form. split; [exact EK|]. exists gs. rewrite RI. split; [exact G | reflexivity].
      * apply ends_form. unfold last_row. rewrite RI, EK. cbn [fst snd]. destruct EN as [EN|(y & I & D & R)]; [left; exact EN | right; exists y; auto].
    + right. exists e, t. split; [unfold bind at 1; rewrite E; reflexivity|]. destruct O as [(a & y & b & ER & N & D & F) | (e0 & -> & N)].
      * eapply (obstacle_row P x tbl a y b); rewrite ?RI, ?EK; cbn [fst]; auto. intros z I DZ. unfold last_row. rewrite EK. exact (N z I DZ).
      * eapply (obstacle_spans P x tbl e0); rewrite ?RI; cbn [fst snd]; auto. intros z I DZ. unfold last_row. rewrite EK. exact (N z I DZ).
  - unfold value_call. destruct (row_iter tbl) as [rows fin] eqn:RI. cbn [fst snd].
    destruct (vrun_quiet (p_label_overrides P) x fin Hx rows [] f) as [(gs & t & E & G & EN) | (e & t & E & O)]; rewrite <- value_loop_run in E.
    + left. cbn [app]. destruct (value_checks x gs f Hx) as (evs & EV & _). exists (BValues gs).
      exists (t ++ evs ++ [EvEnt (mkEntity (x_meta x) (BValues gs))]). split; [|split; [|split]].
      * unfold bind at 1. rewrite E. cbn [app]. unfold bind at 1. rewrite EV. reflexivity.
      * apply in_or_app; right. apply in_or_app; right. left. reflexivity.
      * apply gives_form. split; [exact EK|]. rewrite RI. exact G.
      * apply ends_form. unfold last_row. rewrite RI, EK. cbn [fst snd]. destruct EN as [EN|(y & I & D & R)]; [left; exact EN | right; exists y; auto].
    + right. exists e, t. split; [unfold bind at 1; rewrite E; reflexivity|]. destruct O as [(a & y & b & ER & N & D & F) | (e0 & -> & N)].
      * eapply (obstacle_row P x tbl a y b); rewrite ?RI, ?EK; cbn [fst]; auto. intros z I DZ. unfold last_row. rewrite EK. exact (N z I DZ).
      * eapply (obstacle_spans P x tbl e0); rewrite ?RI; cbn [fst snd]; auto. intros z I DZ. unfold last_row. rewrite EK. exact (N z I DZ).
Qed.
Lemma gives_obstacle P x tbl b : table_gives P x tbl b -> comes_to_end x tbl -> obstacle P x tbl -> False.
Proof.
  rewrite gives_form, ends_form, obstacle_iff. intros G EN O. destruct b as [k fields|fields]; destruct G as [EK G].
  - destruct G as (fs & G & _). apply (obst_gives x (snd (row_iter tbl)) _ _ _ G).
    + unfold last_row in EN. rewrite EK in EN. exact EN.
    + destruct O as [a y b E N D F | e E N]; unfold last_row in *; rewrite EK in *; [left; eauto 10 | right; eauto].
  - apply (vobst_gives (p_label_overrides P) x (snd (row_iter tbl)) _ _ G).
    + unfold last_row in EN. rewrite EK in EN. exact EN.
    + destruct O as [a y b E N D F | e E N]; unfold last_row in *; rewrite EK in *; [left; eauto 10 | right; eauto].
Qed.
Lemma gives_fun P x tbl b b' : table_gives P x tbl b -> table_gives P x tbl b' -> b = b'.
Proof.
  rewrite !gives_form. destruct b as [k fs|fs], b' as [k' fs'|fs']; intros [E G] [E' G']; try congruence.
  - destruct G as (gs & G & ->), G' as (gs' & G' & ->). rewrite E in E'. injection E' as <-. rewrite (C07_fields_determined _ _ _ _ _ G G'). reflexivity.
  - f_equal. eapply values_determined; eassumption.
Qed.

(** ** How a figure is handled *)
Lemma lookup_key l fig c : lookup_fig l fig = Some c -> In (fig, c) l.
Proof.
  unfold lookup_fig. destruct (find _ l) as [[g c0]|] eqn:F; [|discriminate]. intros [= <-]. apply find_some in F as [I E]. cbn in E. apply seqb_eq in E. subst. exact I.
Qed.
Lemma columns_fun c hs k l d k' l' d' : (ec_kind c = EKValues -> c = ValueTableExtractor) ->
  uses_columns c hs k l d -> uses_columns c hs k' l' d' -> k = k' /\ l = l' /\ d = d'.
Proof.
  intros V (hk & hl & hd & L1 & L2 & L3 & F1 & F2) (hk' & hl' & hd' & L1' & L2' & L3' & F1' & F2').
  assert (PF : forall h n n', last_position hs h n -> last_position hs h n' -> n = n') by (intros h n n' A B; apply col_index_spec in A, B; congruence).
  pose proof (first_of_fun _ _ _ _ F1 F1') as <-.
  assert (W : forall h, first_of hs (ec_label_hdrs ValueTableExtractor) h \/ first_of hs (ec_content_hdrs ValueTableExtractor) h -> h <> utf8 "value").
  { intros h [(a & b & _ & I & _)|(a & b & _ & I & _)] ->; cbn in I; repeat (destruct I as [I|I]; [discriminate I|]); destruct I. }
  assert (TWO : forall h h', List.length hs = 2%nat -> first_of hs (ec_key_hdrs c) (utf8 "value") -> h <> utf8 "value" -> h' <> utf8 "value" -> In h hs -> In h' hs -> h = h').
  { intros h h' LN (a & b & E & _) N N' I I'. destruct hs as [|h1 [|h2 [|? ?]]]; try discriminate.
    assert (IV : In (utf8 "value") [h1; h2]) by (rewrite E; apply in_elt). destruct I as [I|[I|[]]], I' as [I'|[I'|[]]], IV as [IV|[IV|[]]]; congruence. }
  assert (EQ : hl = hl' /\ hd = hd').
  { destruct F2 as [[A B]|(KV & LN & HK & EH & NV & NN & I)], F2' as [[A' B']|(KV' & LN' & HK' & EH' & NV' & NN' & I')].
    - split; eapply first_of_fun; eassumption.
    - rewrite (V KV') in A, B. subst hk hd'. assert (IN : forall h nm, first_of hs nm h -> In h hs) by (intros h nm (a & b & -> & _); apply in_elt).
      split; apply (TWO _ _ LN' F1); eauto.
    - rewrite (V KV) in A', B'. subst hk hd. assert (IN : forall h nm, first_of hs nm h -> In h hs) by (intros h nm (a & b & -> & _); apply in_elt).
      split; apply (TWO _ _ LN F1'); eauto.
    - subst hk hd hd'. split; apply (TWO _ _ LN F1); auto. }
  destruct EQ as [<- <-]. split; [|split]; eapply PF; eassumption.
Qed.
Lemma chosen_fun P fig hs c c' : chosen P fig hs c -> chosen P fig hs c' -> c = c'.
Proof. unfold chosen. destruct (lookup_fig _ _); [congruence|]. intuition (congruence || contradiction). Qed.
Lemma chosen_values P fig hs c : struct_overrides P -> chosen P fig hs c -> ec_kind c = EKValues -> c = ValueTableExtractor.
Proof.
  intros SO CH K. unfold chosen in CH. destruct (lookup_fig (p_fig_overrides P) fig) as [c0|] eqn:L.
  - subst c0. apply lookup_key in L. destruct (SO _ _ L K).
  - destruct CH as [(-> & _)|[(-> & _)|(-> & _)]]; [discriminate K | reflexivity | discriminate K].
Qed.
Lemma handled_fun P m tbl x x' : struct_overrides P -> handled P m tbl x -> handled P m tbl x' -> x = x'.
Proof.
  intros SO (M & hs & TH & CH & UC) (M' & hs' & TH' & CH' & UC'). pose proof (table_headers_fun _ _ _ TH TH') as <-.
  pose proof (chosen_fun _ _ _ _ _ CH CH') as EC. rewrite <- EC in UC'.
  destruct (columns_fun _ _ _ _ _ _ _ _ (chosen_values _ _ _ _ SO CH) UC UC') as (A & B & C).
  destruct x, x'. cbn in *. congruence.
Qed.

(** ** One figure *)
Section FIG.
Variable (P : parser).
Hypothesis TM : tame P.
Hypothesis SO : struct_overrides P.
Let p := parse_figure (with_skip false P).

Lemma nested_flag x tbl n f : nested_figure x tbl n -> p (fst n) (snd n) f = p (fst n) (snd n) false.
Proof.
  intros NF. apply nested_form in NF as (a & b & figs & E & TF & I). apply figure_flag.
  pose proof (figs_named x tbl _ _ TF) as FN. rewrite E in FN.
  specialize (FN (fun y H => in_or_app _ _ _ (or_introl H))). rewrite Forall_forall in FN. exact (proj1 (proj1 (FN n I))).
Qed.
Lemma handled_flow m tbl x : m_fig m <> [] -> handled P m tbl x ->
  exists t0, header_lints m t0 /\ p m tbl false =
    let '(r, f', t) := catch (call_of P x tbl p) (on_fig_error (with_skip false P) m) false in (r, f', t0 ++ t).
Proof.
  intros Hm HD. destruct (figure_flow P m tbl Hm) as (t0 & HL & [(hs & LK & TH & US & E) | [(MM & E) | (x' & HD' & E)]]).
  - destruct HD as (_ & hs' & TH' & CH & _). rewrite (table_headers_fun _ _ _ TH' TH) in CH. unfold chosen in CH. rewrite LK in CH.
    exfalso. destruct US as (A & B & C). tauto.
  - destruct HD as (_ & hs' & TH' & CH & UC). destruct MM as (c & hs & LK & TH & CA). unfold chosen in CH. rewrite LK in CH.
    rewrite (table_headers_fun _ _ _ TH' TH), CH in UC. exfalso. exact (proj1 (can_apply_columns _ _) CA _ _ _ UC).
  - pose proof (handled_fun _ _ _ _ _ SO HD HD') as <-. exists t0. split; [exact HL|]. exact (E false false).
Qed.
Lemma ent_events q S e : In (SOwn e) S -> incl e (events_of q S).
Proof. intros I ev H. unfold events_of. apply in_flat_map. exists (SOwn e). auto. Qed.
Lemma quiet_events {A} s (fin : res A) f : exec quiet s fin f = (fin, f, flat_map (fun a => match a with SOwn e => e | SNest _ _ => [] end) s).
Proof.
  induction s as [|[e|m t] s IH]; [reflexivity | |]; cbn [exec flat_map].
  - rewrite IH. reflexivity.
  - unfold quiet at 1. rewrite bind_ret. exact IH.
Qed.
Lemma quiet_snests l : flat_map (fun a => match a with SOwn e => e | SNest _ _ => [] end) (snests l) = [].
Proof. induction l as [|n l IH]; [reflexivity | exact IH]. Qed.
Lemma figure_reads m tbl x b : named m -> handled P m tbl x -> table_gives P x tbl b -> comes_to_end x tbl ->
  (forall n, nested_figure x tbl n -> ~ figure_raises P n) ->
  In (EvEnt (mkEntity m b)) (out p (m, tbl)) /\ (~ splits P (m_fig m) -> ~ figure_raises P (m, tbl)).
Proof.
  intros NM HD TG EN NN. assert (Hm := proj1 NM). assert (Hx : x_fig x <> []) by (unfold x_fig; rewrite (proj1 HD); exact Hm).
  destruct (handled_flow m tbl x Hm HD) as (t0 & _ & E).
  destruct (call_quiet P x tbl false Hx) as [(b' & t & Q & IE & TG' & _) | (e & t & Q & O)]; [|destruct (gives_obstacle _ _ _ _ TG EN O)].
  rewrite (gives_fun _ _ _ _ _ TG' TG) in IE. clear TG'. rewrite (proj1 HD) in IE.
  destruct (call_follows P x tbl Hx) as (s & a & b0 & OS & RE & TF & CF).
  destruct CF as [(e & NF & F) | (-> & evs & ent & ex & (NF & F) & EX & CK)].
  { exfalso. rewrite F, quiet_events in Q. discriminate. }
  rewrite app_nil_r in RE. set (SS := s ++ SOwn (evs ++ [EvEnt ent]) :: snests ex) in *.
  assert (EE : ent = mkEntity m b).
  { rewrite F, quiet_events in Q. injection Q as Q. rewrite <- Q in IE. clear Q. unfold SS in IE. rewrite flat_map_app in IE. apply in_app_or in IE as [I|I].
    - exfalso. apply in_flat_map in I as ([e|? ?] & I1 & I2); [|destruct I2]. apply OS in I1. destruct (I1 _ I2) as (l & L & _). discriminate.
    - cbn [flat_map] in I. rewrite quiet_snests, app_nil_r in I. apply in_app_or in I as [I|[I|[]]]; [|congruence].
      destruct CK as [_ CK]. apply CK in I as (l & L & _). discriminate. }
  subst ent.
  assert (NS : forall n, In n (nests s) -> nested_figure x tbl n) by (intros n I; apply nested_form; exists a, [], (nests s); rewrite app_nil_r; auto).
  assert (FLG : forall n f, In n (nests SS) -> p (fst n) (snd n) f = p (fst n) (snd n) false).
  { intros n f I. unfold SS in I. rewrite nests_app in I. apply in_app_or in I as [I|I]; [exact (nested_flag _ _ _ _ (NS n I))|].
    change (nests (SOwn (evs ++ [EvEnt (mkEntity m b)]) :: snests ex)) with (nests (snests ex)) in I. rewrite nests_snests in I. apply figure_flag.
    destruct (extra_meta P m tbl x ex HD EX) as [-> | (prefix & fig' & title & tbl2 & H1 & -> & _)]; [destruct I|]. destruct I as [<-|[]]. cbn.
    pose proof (handled_override _ _ _ _ _ _ HD H1) as L. apply lookup_named in L. exact (proj1 (TM _ _ _ _ L H1)). }
  unfold out, figure_raises. cbn [fst snd]. change (no_skip P) with (with_skip false P). fold p. rewrite E. unfold catch. rewrite F.
  destruct (exec_run p SS (Ok tt) FLG) as [[D1 D2] | (s1 & m1 & tbl1 & s2 & ES & D1 & D2 & D3)].
  - destruct (D2 false) as (f' & D3 & _). rewrite D3. cbn [snd]. split.
    + apply in_or_app. right. apply (ent_events p SS (evs ++ [EvEnt (mkEntity m b)])); [apply in_elt | apply in_or_app; right; left; reflexivity].
    + intros _ (e & f & es & X). discriminate.
  - rewrite D3. destruct (split_last s s1 s2 m1 tbl1 _ ES) as [(s3 & Es) | (u & v & -> & EU)].
    + exfalso. assert (I : In (m1, tbl1) (nests s)) by (rewrite Es, nests_app; apply in_or_app; right; left; reflexivity).
      apply (NN _ (NS _ I)). destruct (outcome p (m1, tbl1)) as [[]|e|] eqn:OC.
      * destruct (D2 eq_refl).
      * exact (raising P _ _ OC).
      * exfalso. pose proof (figs_named x tbl _ _ TF) as FN. rewrite RE in FN. specialize (FN (fun y H => H)). rewrite Forall_forall in FN. destruct (FN _ I) as ((K1 & _) & _).
        destruct (noskip_shape P (tame_sane _ TM) (S (esize tbl1)) m1 tbl1 (Nat.lt_succ_diag_r _) K1) as [V _]. fold p in V. unfold outcome in OC. cbn [fst snd] in OC.
        destruct (p m1 tbl1 false) as [[r f'] t']. cbn in OC. subst r. destruct V as [_ [(X & _) | [(? & ? & ? & X & _) | (X & _)]]]; discriminate.
    + destruct u as [|[e0|? ?] u]; try discriminate EU. injection EU as <- EU. split.
      * assert (IE' : In (EvEnt (mkEntity m b)) (events_of p (s ++ SOwn (evs ++ [EvEnt (mkEntity m b)]) :: u) ++ out p (m1, tbl1))).
        { apply in_or_app. left. eapply ent_events; [apply in_elt | apply in_or_app; right; left; reflexivity]. }
        destruct (outcome p (m1, tbl1)) as [[]|e|]; cbn [snd fst]; try (apply in_or_app; right; exact IE').
        destruct (on_fig_error _ _ _ _) as [[r f'] t']. cbn [snd]. apply in_or_app. right. apply in_or_app. left. exact IE'.
      * intros NSP. exfalso. apply NSP. destruct (extra_meta P m tbl x ex HD EX) as [-> | (prefix & fig' & title & tbl2 & H1 & -> & _)].
        -- destruct u; discriminate EU.
        -- exists (x_cls x), prefix, fig'. split; [exact (handled_override _ _ _ _ _ _ HD H1) | exact H1].
Qed.
Lemma figure_obstacle m tbl x : named m -> handled P m tbl x -> obstacle P x tbl -> figure_raises P (m, tbl).
Proof.
  intros NM HD O. assert (Hm := proj1 NM). assert (Hx : x_fig x <> []) by (unfold x_fig; rewrite (proj1 HD); exact Hm).
  destruct (handled_flow m tbl x Hm HD) as (t0 & _ & E).
  destruct (call_quiet P x tbl false Hx) as [(b' & t & Q & _ & TG & EN) | (e & t & Q & _)]; [destruct (gives_obstacle _ _ _ _ TG EN O)|].
  destruct (call_follows P x tbl Hx) as (s & a & b0 & OS & RE & TF & CF).
  destruct CF as [(e' & NF & F) | (-> & evs & ent & ex & (NF & F) & EX & CK)]; [|rewrite F, quiet_events in Q; discriminate].
  assert (NS : forall n, In n (nests s) -> nested_figure x tbl n) by (intros n I; apply nested_form; exists a, b0, (nests s); auto).
  unfold figure_raises. cbn [fst snd]. change (no_skip P) with (with_skip false P). fold p. rewrite E. unfold catch. rewrite F.
  assert (H : exists e f t, exec p s (Exn e' : res unit) false = (Exn e, f, t)).
  { destruct (exec_run p s (Exn e' : res unit)) as [[D1 D2] | (s1 & m1 & tbl1 & s2 & ES & D1 & D2 & D3)].
    - intros n f I. exact (nested_flag _ _ _ _ (NS n I)).
    - destruct (D2 false) as (f' & D3 & _). eauto.
    - rewrite D3. assert (I : In (m1, tbl1) (nests s)) by (rewrite ES, nests_app; apply in_or_app; right; left; reflexivity).
      destruct (outcome p (m1, tbl1)) as [[]|e1|] eqn:OC; [destruct (D2 eq_refl) | eauto |].
      exfalso. pose proof (figs_named x tbl _ _ TF) as FN. rewrite RE in FN. specialize (FN (fun y H => in_or_app _ _ _ (or_introl H))). rewrite Forall_forall in FN. destruct (FN _ I) as ((K1 & _) & _).
      destruct (noskip_shape P (tame_sane _ TM) (S (esize tbl1)) m1 tbl1 (Nat.lt_succ_diag_r _) K1) as [V _]. fold p in V. unfold outcome in OC. cbn [fst snd] in OC.
      destruct (p m1 tbl1 false) as [[r f'] t']. cbn in OC. subst r. destruct V as [_ [(X & _) | [(? & ? & ? & X & _) | (X & _)]]]; discriminate. }
  destruct H as (e1 & f1 & t1 & ->). rewrite (handler_run _ _ _ _ Hm). cbn [p_skip with_skip]. destruct (m_parent m); eauto.
Qed.
Lemma figure_causes m tbl x : named m -> handled P m tbl x -> figure_raises P (m, tbl) ->
  obstacle P x tbl \/ (exists n, nested_figure x tbl n /\ figure_raises P n) \/ splits P (m_fig m).
Proof.
  intros NM HD FR. assert (Hm := proj1 NM). assert (Hx : x_fig x <> []) by (unfold x_fig; rewrite (proj1 HD); exact Hm).
  destruct (handled_flow m tbl x Hm HD) as (t0 & _ & E).
  destruct (call_quiet P x tbl false Hx) as [(b & t & Q & IE & TG & EN) | (e & t & Q & O)]; [right | left; exact O].
  destruct (call_follows P x tbl Hx) as (s & a & b0 & OS & RE & TF & CF).
  destruct CF as [(e & NF & F) | (-> & evs & ent & ex & (NF & F) & EX & CK)]; [rewrite F, quiet_events in Q; discriminate|].
  destruct (extra_meta P m tbl x ex HD EX) as [-> | (prefix & fig' & title & tbl2 & H1 & -> & _)].
  2: { right. exists (x_cls x), prefix, fig'. split; [exact (handled_override _ _ _ _ _ _ HD H1) | exact H1]. }
  left. cbn [snests map] in F. rewrite app_nil_r in RE.
  assert (NS : forall n, In n (nests s) -> nested_figure x tbl n) by (intros n I; apply nested_form; exists a, [], (nests s); rewrite app_nil_r; auto).
  assert (NA : nests (s ++ [SOwn (evs ++ [EvEnt ent])]) = nests s) by (rewrite nests_app; cbn; apply app_nil_r).
  destruct FR as (e & f & es & FR). cbn [fst snd] in FR. change (no_skip P) with (with_skip false P) in FR. fold p in FR. rewrite E in FR. unfold catch in FR. rewrite F in FR.
  destruct (exec_run p (s ++ [SOwn (evs ++ [EvEnt ent])]) (Ok tt)) as [[D1 D2] | (s1 & m1 & tbl1 & s2 & ES & D1 & D2 & D3)].
  - rewrite NA. intros n g I. exact (nested_flag _ _ _ _ (NS n I)).
  - destruct (D2 false) as (f' & D3 & _). rewrite D3 in FR. discriminate.
  - rewrite D3 in FR. assert (I : In (m1, tbl1) (nests s)) by (rewrite <- NA, ES, nests_app; apply in_or_app; right; left; reflexivity).
    exists (m1, tbl1). split; [exact (NS _ I)|]. destruct (outcome p (m1, tbl1)) as [[]|e1|] eqn:OC; [destruct (D2 eq_refl) | exact (raising P _ _ OC) | discriminate].
Qed.
End FIG.
