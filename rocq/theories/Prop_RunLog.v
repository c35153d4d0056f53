(** C89: what a run tells its user. *)
From Coq Require Import NArith ZArith List Bool String Lia.
From Coq Require Import ZifyBool ZifyN ZifyNat.
From Verif Require Import PyStr PyStrFacts Xml Json JsonText Lint Extract Document Output Schema Cli Docx Disk Log.
From Verif Require Import SpecJson SpecLog SpecCli SpecOutput SpecDoc SpecRun SpecOut SpecDisk Messages SpecMsg RunLog SpecRunLog.
From Verif Require Import JsonProofs Prop_Cli Prop_Json Prop_Output Prop_Doc Prop_Reads Prop_Out DiskProofs DiskJson Prop_Disk Prop_Msg Prop_Table.
From Verif Require Prop_Log DocProofs MsgFlow.
Import ListNotations.
Local Open Scope string_scope.
Local Open Scope list_scope.
Local Open Scope N_scope.

Section Run.
Variable version : str.
Variable read : str -> source.
Variable printable : N -> bool.
Variable qualname : ecls -> str.
Variable show : path -> str.
Variable printed : failure -> str.
Local Notation json_messages := (json_messages printable qualname show).
Local Notation process := (Disk.process version read).
Local Notation process_log := (RunLog.process_log version read printable qualname show).
Local Notation loop := (Disk.loop version read).
Local Notation loop_log := (RunLog.loop_log version read printable qualname show printed).
Local Notation runs := (Disk.runs version read).
Local Notation runs_log := (RunLog.runs_log version read printable qualname show printed).
Local Notation told_well := (SpecRunLog.told_well show version read).
Local Notation told_failure := (SpecRunLog.told_failure show version read).
Local Notation told_run := (SpecRunLog.told_run show version read printed).
Local Notation told_count := (SpecRunLog.told_count show).

(** ** Logging changes nothing *)

Lemma process_same args out d p w m e : process args out d p w m e <-> exists gs, process_log args out d p w m e gs.
Proof.
  split.
  - intros P. inversion P as [dir name r m' NS E F|dir name w' S C|dir name w' r m' S C E F]; subst; eexists; [eapply pl_html | apply pl_raised | eapply pl_docx]; eauto.
  - intros (gs & P). inversion P as [dir name src r m' NS ES E F|dir name w' S C|dir name w' src r m' S C ES E F]; subst; [apply pr_html | apply pr_raised | apply pr_docx]; auto.
Qed.
Lemma loop_same args validate verbose out d ins w st :
  loop args validate out d ins w st <-> exists es, loop_log args validate verbose out d ins w st es.
Proof.
  split.
  - induction 1 as [d|d p ins N|d p ins w m e A P W|d p ins w m e w' st A P W _ (es & IH)].
    + eexists. constructor.
    + eexists. apply ll_name. exact N.
    + apply process_same in P as (gs & P). eexists. eapply ll_fails; eassumption.
    + apply process_same in P as (gs & P). eexists. eapply ll_next; eassumption.
  - intros (es & L). induction L as [d|d p ins N|d p ins w m e gs A P W|d p ins w m e gs w' st es A P W _ IH].
    + constructor.
    + apply lp_name. exact N.
    + eapply lp_fails; [exact A | apply process_same; eauto | exact W].
    + eapply lp_next; [exact A | apply process_same; eauto | exact W | exact IH].
Qed.
(** The runs are those of Disk.v: logging does not change what is written, nor the status. *)
Theorem C89_same k verbose d w st : runs k d w st <-> exists es, runs_log k verbose d w st es.
Proof.
  unfold Disk.runs, RunLog.runs_log. destruct (forallb (found d) (k_inputs k)).
  2: { split; [intros [-> ->]; exists []; auto | intros (es & -> & -> & _); auto]. }
  destruct (match k_ignore k with Some t => arg_lintcode t | None => Some [] end) as [ig|].
  2: { split; [intros [-> ->]; exists []; auto | intros (es & -> & -> & _); auto]. }
  destruct (k_inputs k); [|apply loop_same]. split; [intros [-> ->]; exists []; auto | intros (es & -> & -> & _); auto].
Qed.

(** ** One document *)

Lemma count_told (l : list json) q :
  told_count q (N.of_nat (List.length l)) (match l with [] => [] | errs => [count_msg show (N.of_nat (List.length errs)) q] end).
Proof.
  destruct l as [|a l]; [constructor; reflexivity|]. apply tc_some; [cbn [List.length]; lia|].
  exists (str_of_N (N.of_nat (List.length (a :: l)))). split; [apply str_of_N_jnat|]. split; [reflexivity|]. split; reflexivity.
Qed.
Lemma lint_list m a b ls : mo_meta m = a ++ (utf8 "lint", JList ls) :: b -> lint_count (file_text m) (N.of_nat (List.length ls)).
Proof.
  intros E. exists [(utf8 "meta", JObj (mo_meta m)); (utf8 "entities", JList (mo_entities m))], (mo_meta m), ls.
  split; [apply C71_text|]. split; [left; reflexivity|]. split; [rewrite E; apply in_elt | reflexivity].
Qed.
Definition html_input (s : source) (inp : input) : Prop := inp = Html s \/ inp = Docx 0 [] false s.
Lemma document_told args q s inp m : html_input s inp -> r_file (parse_spec version args false None inp) = Some m ->
  match r_end (parse_spec version args false None inp) with
  | Finished => exists root ts gs n cs, s = Tree root /\ told_document args root true ts gs /\ json_for version args root (file_text m)
      /\ lint_count (file_text m) n /\ told_count q n cs /\ json_messages args q s = gs ++ cs
  | Failed PRead => s = Unreadable /\ json_messages args q s = []
  | Failed (PDoc e) => exists root, s = Tree root
      /\ ((e = ERuntime /\ json_messages args q s = [] /\ (no_attr root "data-spec" \/ no_attr root "data-revision"))
          \/ exists ts, told_document args root false ts (json_messages args q s)
             /\ (unreported args root \/ exists ts' row m0 around, ts = ts' ++ [Failure row m0 e around]))
  | _ => False
  end.
Proof.
  intros HI RF.
  assert (JS : exists rs, json_stage version args false None s = (rs, m, r_end (parse_spec version args false None inp))).
  { destruct HI as [-> | ->]; unfold parse_spec in *; destruct (json_stage _ _ _ _ _) as [[rs m'] e]; cbn [r_file r_end] in *; injection RF as ->; eauto. }
  destruct JS as [rs JS]. pose proof (json_written version args inp) as JW. set (en := r_end _) in *. unfold RunLog.json_messages.
  destruct s as [|root].
  { unfold json_stage, open_doc in JS. injection JS as _ _ <-. split; reflexivity. }
  destruct (meta_attrs (utf8 "data-spec") root) as [|k ks] eqn:K.
  { unfold json_stage, open_doc in *. rewrite K in JS |- *. injection JS as _ _ <-. exists root. split; [reflexivity|]. left. split; [reflexivity|]. split; [reflexivity|]. left. apply no_attr_iff. exact K. }
  destruct (meta_attrs (utf8 "data-revision") root) as [|v vs] eqn:V.
  { unfold json_stage, open_doc in *. rewrite K, V in JS |- *. injection JS as _ _ <-. exists root. split; [reflexivity|]. left. split; [reflexivity|]. split; [reflexivity|]. right. apply no_attr_iff. exact V. }
  assert (OD : open_doc (Tree root) = inr (root, lower k, lower v)) by (unfold open_doc; rewrite K, V; reflexivity). rewrite OD.
  assert (FK : first_attr root "data-spec" k) by (apply first_attr_iff; eauto). assert (FV : first_attr root "data-revision" v) by (apply first_attr_iff; eauto).
  pose proof (tame_parsers (a_skip args) (lower k) (lower v)) as TM. pose proof (struct_parsers (a_skip args) (lower k) (lower v)) as SO.
  remember (get_parser (a_skip args) (lower k) (lower v)) as P eqn:EP.
  destruct (log_doc printable (lower k) (lower v) qualname P root) as [r acts] eqn:LD.
  pose proof (C88_same _ _ _ _ _ _ _ _ LD) as PD.
  destruct (C88_reports _ _ _ _ _ _ _ _ TM LD) as (ts & ls & AR & TH & F2 & NE).
  assert (DO : exists ok, doc_outputs P 0 (figures root) ok (done acts) /\ run_ok r ok).
  { destruct (doc_told P TM SO (figures root) 0 false) as (ok & r' & f & es & D & E & R). unfold parse_doc in PD. rewrite E in PD. injection PD as <- <-. eauto. }
  destruct DO as (ok & DO & RO).
  assert (TD : told_document args root ok ts (said acts)).
  { exists k, v, (done acts), ls. cbn zeta. rewrite <- EP. auto 10. }
  assert (PD' := PD). rewrite EP in PD'. rewrite (json_stage_none version args false _ root k v r _ eq_refl FK FV PD') in JS. change (evs_of acts) with (done acts). change (msgs_of acts) with (said acts).
  destruct r as [[]|x|].
  - assert (ok = true) as -> by (destruct ok; [reflexivity | destruct RO as (? & ?); discriminate]).
    injection JS as _ EM <-. exists root, ts, (said acts), (N.of_nat (List.length (reported_lint (a_ignore args) (done acts)))). eexists.
    split; [reflexivity|]. split; [exact TD|]. split.
    { apply (JW root); [destruct HI as [-> | ->]; reflexivity | destruct HI as [-> | ->]; [exact Logic.I | reflexivity] | exact RF |].
      reflexivity. }
    split; [eapply (lint_list m (doc_meta version (lower k) (lower v)) []); rewrite <- EM; reflexivity|]. split; [apply count_told|]. destruct (reported_lint _ _); reflexivity.
  - assert (ok = false) as -> by (destruct ok; [discriminate | reflexivity]). injection JS as _ _ <-. exists root. split; [reflexivity|]. right. rewrite app_nil_r.
    destruct (C88_abort _ _ _ _ _ _ _ _ TM LD) as [(t & I & U)|(t & m0 & tbl & ts' & row & m1 & around & ls' & I & ID & AR' & TH' & F2' & NE' & OU)].
    + exists ts. split; [exact TD|]. left. exists k, v, t. rewrite <- EP. auto.
    + exists (ts' ++ [Failure row m1 x around]). split; [|right; eauto 6]. exists k, v, (done acts), ls'. cbn zeta. rewrite <- EP. auto 10.
  - destruct ok; [discriminate | destruct RO; discriminate].
Qed.

(** ** One input *)

Lemma pl_html_told args out d p stem w m e gs : html_file p stem -> process_log args out d p w m e gs ->
  exists m' inp, m = Some m' /\ In ((out, stem ++ utf8 ".json"), file_text m') w
    /\ html_input (source_of read (d p)) inp /\ r_file (parse_spec version args false None inp) = Some m'
    /\ e = r_end (parse_spec version args false None inp) /\ gs = json_messages args (out, stem ++ utf8 ".json") (source_of read (d p)).
Proof.
  intros N P. inversion P as [dir name src r m' NS ES E F EP EW EM EN|dir name w' S C|dir name w' src r m' S C ES E F EP EW EM EN]; subst.
  2, 3: exfalso; exact (not_docx (dir, name) stem N S).
  pose proof (json_name_of (dir, name) stem N) as JN. cbn [snd] in JN. rewrite JN in *.
  assert (NJ : (dir, name) <> (out, stem ++ utf8 ".json")).
  { intros [= _ X]. assert (stem <> []) by apply N. assert (J : named (stem ++ utf8 ".json") stem (utf8 "json")) by ext. unfold html_file in N. cbn [snd] in N. rewrite X in N.
    destruct (named_unique _ _ _ _ _ N J) as [_ ?]. discriminate. }
  rewrite dafter_other in * by (cbn [map fst In]; intros [X|[]]; apply NJ; symmetry; exact X).
  exists m', (Html (source_of read (d (dir, name)))). split; [reflexivity|]. split; [right; left; reflexivity|]. split; [left; reflexivity|]. auto.
Qed.
Lemma pl_docx_told args out d p stem w m e gs : docx_file p stem -> process_log args out d p w m e gs ->
  (m = None /\ e = Failed PConvert /\ gs = [])
  \/ exists m' inp html, m = Some m' /\ In ((out, stem ++ utf8 ".json"), file_text m') w
    /\ (forall src, In ((out, stem ++ utf8 ".html"), src) w <-> src = html)
    /\ html_input (read html) inp /\ r_file (parse_spec version args false None inp) = Some m'
    /\ e = r_end (parse_spec version args false None inp) /\ gs = json_messages args (out, stem ++ utf8 ".json") (read html).
Proof.
  intros N P. inversion P as [dir name src r m' NS ES E F EP EW EM EN|dir name w' S C|dir name w' src r m' S C ES E F EP EW EM EN]; subst.
  1: { exfalso. apply NS. apply suffix_docx. exists stem. exact N. }
  1: { left. auto. }
  right. destruct (html_name_of (dir, name) stem N) as [HN JN]. cbn [snd] in HN, JN. rewrite HN in *. rewrite <- HN, JN in *. rewrite HN in *. rewrite (drop_named name stem _ N) in C.
  inversion C as [| | | |pk doc h us ts c html css OP PD HD W L X1 X2]; subst. assert (NE : stem <> []) by apply N.
  assert (JC : named (stem ++ utf8 ".css") stem (utf8 "css")) by ext.
  assert (JH : named (stem ++ utf8 ".html") stem (utf8 "html")) by ext. assert (JJ : named (stem ++ utf8 ".json") stem (utf8 "json")) by ext.
  assert (X : (out, stem ++ utf8 ".json") <> (out, stem ++ utf8 ".html")).
  { intros X. apply (f_equal snd) in X. cbn [snd] in X. rewrite X in JJ. destruct (named_unique _ _ _ _ _ JH JJ) as [_ ?]. discriminate. }
  assert (Y : (out, stem ++ utf8 ".css") <> (out, stem ++ utf8 ".html")).
  { intros Y. apply (f_equal snd) in Y. cbn [snd] in Y. rewrite Y in JC. destruct (named_unique _ _ _ _ _ JH JC) as [_ ?]. discriminate. }
  rewrite (dafter_last [((out, stem ++ utf8 ".css"), css)] (out, stem ++ utf8 ".html") html [((out, stem ++ utf8 ".json"), [])]) in * by (cbn [map fst In]; tauto).
  exists m', (Docx 0 [] false (read html)), html. split; [reflexivity|]. split; [right; right; right; left; reflexivity|]. split.
  { intros src. split; [|intros ->; right; left; reflexivity]. intros [I|[I|[I|[I|[]]]]].
    - apply (f_equal fst) in I. cbn [fst] in I. destruct (Y I).
    - apply (f_equal snd) in I. symmetry. exact I.
    - apply (f_equal fst) in I. cbn [fst] in I. destruct (X I).
    - apply (f_equal fst) in I. cbn [fst] in I. destruct (X I). }
  split; [right; reflexivity|]. auto.
Qed.
(** The HTML file that is read, whichever kind of input it is. *)
Lemma input_told args out d p stem w m e gs : has_stem p stem -> process_log args out d p w m e gs ->
  (docx_file p stem /\ m = None /\ e = Failed PConvert /\ gs = [])
  \/ exists m' inp s, m = Some m' /\ In ((out, stem ++ utf8 ".json"), file_text m') w
    /\ match s with
       | Tree root => exists src, html_for out d w p src /\ read src = Tree root
       | Unreadable => forall src root, html_for out d w p src -> read src <> Tree root
       end
    /\ html_input s inp /\ r_file (parse_spec version args false None inp) = Some m'
    /\ e = r_end (parse_spec version args false None inp) /\ gs = json_messages args (out, stem ++ utf8 ".json") s.
Proof.
  intros [N|N] P.
  - destruct (pl_docx_told _ _ _ _ _ _ _ _ _ N P) as [H|(m' & inp & html & EM & I & IH & HI & RF & EE & EG)]; [left; split; [exact N | exact H]|].
    right. exists m', inp, (read html). split; [exact EM|]. split; [exact I|]. split; [|auto].
    destruct (read html) as [|root] eqn:R.
    + intros src root [(st & F & _)|(st & F & J)].
      * destruct (named_unique _ _ _ _ _ N F) as [_ ?]. discriminate.
      * destruct (named_unique _ _ _ _ _ N F) as [<- _]. apply IH in J as ->. congruence.
    + exists html. split; [|exact R]. right. exists stem. split; [exact N|]. apply IH. reflexivity.
  - destruct (pl_html_told _ _ _ _ _ _ _ _ _ N P) as (m' & inp & EM & I & HI & RF & EE & EG). right. exists m', inp, (source_of read (d p)).
    split; [exact EM|]. split; [exact I|]. split; [|auto].
    assert (HF : forall src, html_for out d w p src -> d p = Some (Text src)).
    { intros src [(st & _ & D)|(st & F & J)]; [exact D|]. destruct (named_unique _ _ _ _ _ N F) as [_ ?]. discriminate. }
    destruct (d p) as [[src| |]|] eqn:D; cbn [source_of] in *.
    2-4: intros src root H; apply HF in H; discriminate.
    destruct (read src) as [|root] eqn:R.
    + intros src' root H. apply HF in H. injection H as <-. congruence.
    + exists src. split; [|exact R]. left. eauto.
Qed.
Lemma input_well args out d p stem w m e gs validate : has_stem p stem -> process_log args out d p w m e gs ->
  if well validate m e then told_well args out d p w gs else told_failure args validate out d p w (failure_of e) gs.
Proof.
  intros N P. destruct (input_told _ _ _ _ _ _ _ _ _ N P) as [(F & -> & -> & ->)|(m' & inp & s & -> & I & HS & HI & RF & EE & EG)].
  { cbn [well failure_of]. eapply tf_convert. exact F. }
  pose proof (document_told args (out, stem ++ utf8 ".json") s inp m' HI RF) as T. rewrite <- EE in T. destruct e as [|[x| | |]]; cbn [well failure_of]; try contradiction.
  - destruct T as (root & ts & gs0 & n & cs & -> & TD & JF & LC & TC & EM). destruct HS as (src & HF & R).
    assert (TW : told_well args out d p w gs) by (rewrite EG, EM; eapply tw; eassumption).
    destruct validate; cbn [andb negb]; [|exact TW]. destruct (valid stage2_schema (model_json m')) eqn:V; cbn [negb]; [exact TW|].
    eapply tf_invalid; try eassumption; [reflexivity | apply C71_text].
  - destruct T as (root & -> & T). destruct HS as (src & HF & R). destruct T as [(-> & EM & NA)|(ts & TD & [U|(ts' & row & m0 & around & ->)])]; rewrite EG.
    + rewrite EM. eapply tf_header; eassumption.
    + eapply tf_unreported; eassumption.
    + eapply tf_figure; eassumption.
  - destruct T as (-> & EM). rewrite EG, EM. apply tf_unread. exact HS.
Qed.

(** ** The run *)

Lemma suffix_json name : path_suffix name = utf8 ".json" <-> exists stem, named name stem (utf8 "json").
Proof.
  split.
  - intros E. destruct (named_suffix name _ E) as (stem & ext & X & N); [discriminate|]. injection X as <-. exists stem. exact N.
  - intros (stem & N). rewrite (suffix_named _ _ _ N). reflexivity.
Qed.
Lemma plain_is l t : plain_msg l t (mkMessage (utf8 l) t [] None).
Proof. split; [reflexivity|]. split; reflexivity. Qed.
Lemma announced p : announces show p (parsing_msg show p).
Proof. apply plain_is. Qed.
Lemma joined_msg l sep a b r : exists t, plain_msg l (a ++ t) (mkMessage (utf8 l) (join sep (a :: b :: r)) [] None).
Proof. exists (sep ++ join sep (b :: r)). apply plain_is. Qed.
Lemma given_up : gives_up exited_msg.
Proof. exact (joined_msg "U_ERROR" _ _ _ _). Qed.
Lemma rejected p : (~ exists stem, has_stem p stem) -> rejects show p (bad_input show p).
Proof.
  intros _. unfold bad_input. destruct (seqb (path_suffix (snd p)) (utf8 ".json")) eqn:E.
  - left. apply seqb_eq in E. apply suffix_json in E as (stem & N). exists stem. split; [exact N | reflexivity].
  - right. split; [intros H; apply suffix_json in H; rewrite H, seqb_refl in E; discriminate|]. exists (utf8 ", requires a HTML model or the docx specification file" ++ [10]).
    apply (f_equal (fun t => utf8 "invalid input file (" ++ show p ++ t)). vm_compute. reflexivity.
Qed.
Lemma loop_told args validate verbose out d ins w st es :
  loop_log args validate verbose out d ins w st es -> told_run args validate verbose out d ins w st es.
Proof.
  induction 1 as [d|d p ins N|d p ins w m e gs A P W|d p ins w m e gs w' st es A P W _ IH].
  - constructor.
  - assert (NS : ~ exists stem, has_stem p stem) by (intros H; apply N, accepted_name, H).
    apply tr_reject; [apply announced | exact NS | apply rejected, NS].
  - apply accepted_name in A as (stem & A). pose proof (input_well _ _ _ _ _ _ _ _ _ validate A P) as T. rewrite W in T.
    apply (tr_fail show version read printed args validate verbose out d p ins w (parsing_msg show p) (failure_of e) gs exited_msg); [apply announced | exact T | exact given_up].
  - apply accepted_name in A as (stem & A). pose proof (input_well _ _ _ _ _ _ _ _ _ validate A P) as T. rewrite W in T.
    apply tr_next; [apply announced | exact T | exact IH].
Qed.
(** What a run tells: nothing if the command line is not valid; otherwise it goes through the
    inputs as [told_run] says. *)
Theorem C89_told k verbose d w st es : runs_log k verbose d w st es ->
  (st <> 0 /\ w = [] /\ es = []
   /\ (k_inputs k = [] \/ (exists p, In p (k_inputs k) /\ d p = None) \/ forall ig, ~ ignores (k_ignore k) ig))
  \/ exists ig, ignores (k_ignore k) ig /\ told_run (mkArgs (k_skip k) ig) (k_validate k) verbose (k_out k) d (k_inputs k) w st es.
Proof.
  unfold RunLog.runs_log. destruct (forallb (found d) (k_inputs k)) eqn:FA.
  2: { intros (-> & -> & ->). left. split; [discriminate|]. split; [reflexivity|]. split; [reflexivity|]. right. left.
       assert (H : ~ forall p, In p (k_inputs k) -> found d p = true) by (intros H; apply forallb_forall in H; congruence).
       clear FA. induction (k_inputs k) as [|p l IH]; [exfalso; apply H; intros ? []|]. destruct (found d p) eqn:F.
       - destruct IH as (q & I & Q); [intros H'; apply H; intros q [<-|I]; auto|]. exists q. split; [right; exact I | exact Q].
       - exists p. split; [left; reflexivity|]. unfold found in F. destruct (d p); [discriminate | reflexivity]. }
  destruct (match k_ignore k with Some t => arg_lintcode t | None => Some [] end) as [ig|] eqn:IG.
  2: { intros (-> & -> & ->). left. split; [discriminate|]. split; [reflexivity|]. split; [reflexivity|]. right. right. intros ig H. unfold ignores in H.
       destruct (k_ignore k) as [x|]; [|discriminate]. apply C61_codes in H. congruence. }
  assert (H : ignores (k_ignore k) ig) by (unfold ignores; destruct (k_ignore k) as [x|]; [apply C61_codes; exact IG | congruence]).
  destruct (k_inputs k) as [|p ins] eqn:KI.
  { intros (-> & -> & ->). left. split; [discriminate|]. auto. }
  intros L. right. exists ig. split; [exact H|]. apply loop_told. exact L.
Qed.

(** ** What follows *)

(** Messages that do not announce an input and do not give up. *)
Definition other_msg (g : message) : Prop := g_level g <> utf8 "U_INFO" /\ ~ gives_up g.
Lemma error_other g t : g_level g = utf8 "U_ERROR" -> g_text g = t -> (forall s, t <> utf8 "Program exited in error!" ++ s) -> other_msg g.
Proof. intros L T N. split; [rewrite L; discriminate|]. intros (s & _ & E & _). rewrite T in E. exact (N s E). Qed.
Lemma user_other s m g : for_user s m g -> (forall a b, utf8 s ++ a <> utf8 "Program exited in error!" ++ b) -> other_msg g.
Proof. intros (L & _ & _ & d & T & _) N. eapply error_other; [exact L | exact T|]. intros b. apply N. Qed.
Lemma log_other e m g : for_log e m g -> other_msg g.
Proof. intros (L & _). split; [rewrite L; discriminate|]. intros (s & E & _). rewrite L in E. discriminate. Qed.
Lemma report_other t gs : reports t gs -> Forall other_msg gs.
Proof.
  assert (F : forall m g, for_user "failed parsing figure " m g -> other_msg g) by (intros m g H; eapply user_other; [exact H | intros a b; discriminate]).
  assert (G : forall around gs, Forall2 (for_user "  in ") around gs -> Forall other_msg gs).
  { induction 1 as [|m g ms gs' H _ IH]; constructor; [|exact IH]. eapply user_other; [exact H | intros a b; discriminate]. }
  destruct 1 as [m e around g1 g2 gs U L I|row m e around g0 g1 g2 gs L0 _ U L I|title d g L _ T _].
  - constructor; [eapply F; exact U|]. constructor; [eapply log_other; exact L | eapply G; exact I].
  - constructor; [eapply log_other; exact L0|]. constructor; [eapply F; exact U|]. constructor; [eapply log_other; exact L | eapply G; exact I].
  - constructor; [|constructor]. eapply error_other; [exact L | exact T|]. intros b. discriminate.
Qed.
Lemma reports_other ts gs : all_reports ts gs -> Forall other_msg gs.
Proof. induction 1 as [|t ts gs gs' R _ IH]; [constructor | apply Forall_app; split; [eapply report_other; exact R | exact IH]]. Qed.
Lemma document_other args root ok ts gs : told_document args root ok ts gs -> Forall other_msg gs.
Proof. intros (k & v & es & ls & _ & _ & _ & _ & _ & _ & A). eapply reports_other. exact A. Qed.
Lemma count_other q n cs : told_count q n cs -> Forall other_msg cs.
Proof.
  destruct 1 as [|g _ (s & _ & L & T & _)]; constructor; [|constructor]. eapply error_other; [exact L | exact T|]. intros b. discriminate.
Qed.
Lemma well_other args out d p w gs : told_well args out d p w gs -> Forall other_msg gs.
Proof. destruct 1 as [src root stem t n ts gs cs _ _ D _ _ _ _ C]. apply Forall_app. split; [eapply document_other; exact D | eapply count_other; exact C]. Qed.
Lemma failure_other args validate out d p w f gs : told_failure args validate out d p w f gs -> Forall other_msg gs.
Proof.
  destruct 1 as [| | |src root e ts row m around gs _ _ D|src root e ts gs _ _ D _|gs stem t j _ W _ _ _ _]; try constructor; try (eapply document_other; exact D).
  eapply well_other. exact W.
Qed.
Lemma announce_level p g : announces show p g -> g_level g = utf8 "U_INFO" /\ ~ gives_up g.
Proof. intros (L & _). split; [exact L|]. intros (s & E & _). rewrite L in E. discriminate. Qed.
Lemma give_up_level g : gives_up g -> g_level g <> utf8 "U_INFO".
Proof. intros (s & E & _). rewrite E. discriminate. Qed.

Definition info (x : entry) : Prop := exists g, x = Msg g /\ g_level g = utf8 "U_INFO".
Lemma those_none {A} (P : A -> Prop) l k : Forall (fun a => ~ P a) l -> those P k k -> those P (l ++ k) k.
Proof. induction 1; intros H'; cbn [app]; [exact H' | apply th_out; auto]. Qed.
Lemma those_skip {A} (P : A -> Prop) l k k' : Forall (fun a => ~ P a) l -> those P k k' -> those P (l ++ k) k'.
Proof. induction 1; intros H'; cbn [app]; [exact H' | apply th_out; auto]. Qed.
Lemma msgs_not_info gs : Forall other_msg gs -> Forall (fun x => ~ info x) (map Msg gs).
Proof. intros F. apply Forall_map. eapply Forall_impl; [|exact F]. intros g (N & _) (g' & [= <-] & L). exact (N L). Qed.
Lemma run_announced args validate verbose out d ins w st es : told_run args validate verbose out d ins w st es ->
  exists A B gs, ins = A ++ B /\ those info es (map Msg gs) /\ Forall2 (announces show) A gs /\ (st = 0 -> B = []) /\ (st <> 0 -> A <> []).
Proof.
  induction 1 as [d|d p ins w w' st a gs es AN T _ (A & B & hs & -> & TH & F & Z & NZ)|d p ins a s AN NS R|d p ins w a f gs g AN T G].
  - exists [], [], []. split; [reflexivity|]. split; [constructor|]. split; [constructor|]. split; [reflexivity | intros H; destruct (H eq_refl)].
  - exists (p :: A), B, (a :: hs). split; [reflexivity|]. split; [|split; [constructor; assumption | split; [exact Z | discriminate]]].
    cbn [map]. apply th_in; [exists a; split; [reflexivity | apply (announce_level p), AN]|]. apply those_skip; [apply msgs_not_info; eapply well_other; exact T | exact TH].
  - exists [p], ins, [a]. split; [reflexivity|]. split; [|split; [constructor; [assumption | constructor] | split; [discriminate | discriminate]]].
    cbn [map]. apply th_in; [exists a; split; [reflexivity | apply (announce_level p), AN]|]. apply th_out; [intros (g & E & _); discriminate | constructor].
  - exists [p], ins, [a]. split; [reflexivity|]. split; [|split; [constructor; [assumption | constructor] | split; [discriminate | discriminate]]].
    cbn [map]. apply th_in; [exists a; split; [reflexivity | apply (announce_level p), AN]|]. apply those_skip; [apply msgs_not_info; eapply failure_other; exact T|].
    apply th_out; [intros (g' & E & _); discriminate|]. apply th_out; [intros (g' & [= <-] & L); exact (give_up_level _ G L)|].
    destruct verbose; [apply th_out; [intros (g' & E & _); discriminate|]|]; constructor.
Qed.
(** The messages of the level U_INFO announce the inputs one after the other: all of them if the
    status is 0, and otherwise those up to the one at which the run ended. *)
Theorem C89_announced k verbose d w st es : runs_log k verbose d w st es -> es <> [] ->
  exists A B gs, k_inputs k = A ++ B /\ those info es (map Msg gs) /\ Forall2 (announces show) A gs /\ (st = 0 -> B = []) /\ A <> [].
Proof.
  intros R NE. destruct (C89_told _ _ _ _ _ _ R) as [(_ & _ & E & _)|(ig & _ & T)]; [congruence|].
  destruct (run_announced _ _ _ _ _ _ _ _ _ T) as (A & B & gs & E & TH & F & Z & NZ). exists A, B, gs. split; [exact E|]. split; [exact TH|]. split; [exact F|]. split; [exact Z|].
  destruct (N.eq_dec st 0) as [E0|N0]; [|auto]. intros ->. rewrite (Z E0) in E. destruct (k_inputs k); [|discriminate]. inversion T; subst. congruence.
Qed.

Definition harmless (x : entry) : Prop := exists g, x = Msg g /\ ~ gives_up g.
Lemma msgs_harmless gs : Forall other_msg gs -> Forall harmless (map Msg gs).
Proof. intros F. apply Forall_map. eapply Forall_impl; [|exact F]. intros g (_ & N). exists g. auto. Qed.
(** The status is 0 exactly if nothing but messages is logged, none of them saying that the
    program gives up.  Otherwise, unless the command line is not valid, the run ends by rejecting
    an input, or with the record of an exception and the message that the program gives up. *)
Theorem C89_status k verbose d w st es : runs_log k verbose d w st es -> es <> [] ->
  (st = 0 /\ Forall harmless es)
  \/ st = 1 /\ exists es0, Forall harmless es0
       /\ ((exists p s, In p (k_inputs k) /\ (~ exists stem, has_stem p stem) /\ rejects show p s /\ es = es0 ++ [Stderr s])
           \/ exists f g, gives_up g /\ es = es0 ++ Bubble f :: Msg g :: if verbose then [Stderr (printed f)] else []).
Proof.
  intros R NE. destruct (C89_told _ _ _ _ _ _ R) as [(_ & _ & E & _)|(ig & _ & T)]; [congruence|]. clear R NE.
  assert (AH : forall p a, announces show p a -> harmless (Msg a)) by (intros p a H; exists a; split; [reflexivity | apply (announce_level p), H]).
  induction T as [d|d p ins w w' st a gs es AN T _ IH|d p ins a s AN NS RJ|d p ins w a f gs g AN T G].
  - left. split; [reflexivity | constructor].
  - assert (F : Forall harmless (Msg a :: map Msg gs)) by (constructor; [eapply AH; exact AN | apply msgs_harmless; eapply well_other; exact T]).
    destruct IH as [(-> & H)|(-> & es0 & H & C)].
    + left. split; [reflexivity|]. change (Forall harmless ((Msg a :: map Msg gs) ++ es)). apply Forall_app. auto.
    + right. split; [reflexivity|]. exists ((Msg a :: map Msg gs) ++ es0). split; [apply Forall_app; auto|].
      destruct C as [(q & s & I & NS & RJ & ->)|(f & g & G & ->)].
      * left. exists q, s. split; [right; exact I|]. split; [exact NS|]. split; [exact RJ|]. cbn [app]. rewrite <- app_assoc. reflexivity.
      * right. exists f, g. split; [exact G|]. cbn [app]. rewrite <- app_assoc. reflexivity.
  - right. split; [reflexivity|]. exists [Msg a]. split; [constructor; [eapply AH; exact AN | constructor]|]. left. exists p, s. split; [left; reflexivity|]. auto.
  - right. split; [reflexivity|]. exists (Msg a :: map Msg gs). split; [constructor; [eapply AH; exact AN | apply msgs_harmless; eapply failure_other; exact T]|].
    right. exists f, g. split; [exact G | reflexivity].
Qed.

Lemma first_attr_one root a x y : first_attr root a x -> first_attr root a y -> x = y.
Proof. intros (r & E) %first_attr_iff (r' & E') %first_attr_iff. congruence. Qed.
(** Without --lint-ignore, if there are no entries in the JSON files of a run that ends well, its
    log has nothing but the announcements. *)
Theorem C89_clean k verbose d w es : runs_log k verbose d w 0 es -> k_ignore k = None ->
  (forall q t n, In (q, t) w -> lint_count t n -> n = 0) ->
  exists gs, es = map Msg gs /\ Forall2 (announces show) (k_inputs k) gs.
Proof.
  intros R KI Z. destruct (C89_told _ _ _ _ _ _ R) as [(N & _)|(ig & IG & T)]; [congruence|]. unfold ignores in IG. rewrite KI in IG. subst ig.
  clear R KI. assert (E0 : 0 = 0) by reflexivity. revert E0 T. generalize 0 at 1 3. intros st E0 T. induction T as [d|d p ins w w' st a gs es AN T _ IH|d p ins a s AN NS RJ|d p ins w a f gs g AN T G]; try discriminate.
  - exists []. split; [reflexivity | constructor].
  - destruct IH as (hs & -> & F); [intros q t n I; apply (Z q); apply in_or_app; auto | exact E0|].
    assert (gs = []) as ->; [|exists (a :: hs); split; [reflexivity | constructor; assumption]].
    destruct T as [src root stem t n ts gs cs _ _ D _ I JF LC TC]. assert (n = 0) as -> by (eapply Z; [apply in_or_app; left; exact I | exact LC]).
    destruct TC as [_|g N _]; [|congruence]. rewrite app_nil_r.
    destruct D as (k1 & v1 & es1 & ls1 & K1 & V1 & D1 & TH & F2 & _ & AR).
    destruct JF as (k2 & v2 & es2 & j & m & js & ls & lj & K2 & V2 & D2 & JT & OB & OM & _ & WO & SL).
    rewrite (first_attr_one _ _ _ _ K2 K1), (first_attr_one _ _ _ _ V2 V1) in D2.
    destruct (doc_fun _ (struct_parsers _ _ _) _ _ _ _ _ _ D1 D2) as [_ <-].
    assert (lj = []) as ->.
    { destruct LC as (l & mt & lx & JT' & I1 & I2 & N). pose proof (json_text_unique _ _ _ JT' JT) as <-. destruct OB as (l' & [= <-] & _ & OB). apply OB in I1 as (nm & EN & I1).
      destruct I1 as [I1|[I1|[]]]; [|injection I1 as <- X; discriminate X]. injection I1 as <- ->. destruct OM as (l' & [= <-] & _ & OM). apply OM in I2 as (nm & EN2 & I2).
      assert (JList lx = JList lj) as X.
      { destruct I2 as [I2|[I2|[I2|[I2|[I2|[]]]]]]; injection I2 as <- X; try discriminate X. rewrite X. reflexivity. }
      injection X as <-. destruct lx; [reflexivity|]. cbn [List.length] in N. lia. }
    inversion SL; subst. assert (LS : lints_of es1 = []) by (inversion WO as [E|x l l' IN _ E|]; subst; [reflexivity | destruct IN]).
    rewrite LS in TH. inversion TH; subst. inversion F2; subst. inversion AR; subst. reflexivity.
Qed.
(** What the console shows without SPEX_DEBUG: the messages of the levels for the user. *)
Theorem C89_console es rs trace env us : recorded es rs -> (forall v, env = Some v -> ~ asks_debug v) ->
  those (fun x => exists g, x = Msg g /\ user_level (g_level g)) es (map Msg us) ->
  console trace env rs = List.concat (map (fun g => [8226; 32] ++ g_text g ++ [10]) us).
Proof.
  intros R D T.
  assert (exists ks, those (fun r => user_level (lr_level r)) rs ks /\ map lr_msg ks = map g_text us) as (ks & K & E).
  { clear D. revert us T. induction R as [|g r es rs L M _ _ R IH|f r es rs L M _ R IH|s es rs R IH]; intros us T.
    - inversion T as [E| |]; subst. destruct us; [|discriminate]. exists []. split; [constructor | reflexivity].
    - inversion T as [|x l k H T' E1 E2|x l k H T' E1]; subst.
      + destruct us as [|u us]; [discriminate|]. cbn [map] in E2. injection E2 as -> ->. destruct (IH us T') as (ks & K & E). exists (r :: ks). split; [|cbn [map]; congruence].
        apply th_in; [|exact K]. destruct H as (g' & [= <-] & H). rewrite L. exact H.
      + destruct (IH us T') as (ks & K & E). exists ks. split; [|exact E]. apply th_out; [|exact K]. intros U. apply H. exists g. split; [reflexivity|]. rewrite <- L. exact U.
    - inversion T as [|x l k H T' E1 E2|x l k H T' E1]; subst; [destruct H as (g & E & _); discriminate|]. destruct (IH us T') as (ks & K & E). exists ks. split; [|exact E].
      apply th_out; [|exact K]. rewrite L. intros U. unfold user_level in U. cbn [map In] in U. repeat destruct U as [U|U]; try discriminate U. exact U.
    - inversion T as [|x l k H T' E1 E2|x l k H T' E1]; subst; [destruct H as (g & E & _); discriminate|]. exact (IH us T'). }
  rewrite (Prop_Log.C86_console trace env rs ks D K).
  rewrite <- (map_map lr_msg (fun t => [8226; 32] ++ t ++ [10])), <- (map_map g_text (fun t => [8226; 32] ++ t ++ [10])), E. reflexivity.
Qed.
End Run.

(** ** Examples *)

(** Any text is read as the document [root]; one input or two. *)
Definition rl_a : path := (utf8 "in", utf8 "a.html").
Definition rl_j : path := (utf8 "in", utf8 "b.json").
Definition rl_disk : disk := fun q => Some (Text []).
Definition rl_show (p : path) : str := fst p ++ [47] ++ snd p.
Definition rl_cmd (skip : bool) (ignore : option str) (ins : list path) : command := mkCommand skip ignore false (utf8 "out") (utf8 "in") ins.
Local Notation rl_runs root := (RunLog.runs_log (utf8 "1") (fun _ => Tree root) (fun _ => true) (fun _ => utf8 "X") rl_show (fun _ => [])).
Definition rl_json (root : elem) (args : pargs) : list message := json_messages (fun _ => true) (fun _ => utf8 "X") rl_show args (utf8 "out", utf8 "a.json") (Tree root).
Definition rl_run (root : elem) (args : pargs) : run := parse_spec (utf8 "1") args false None (Html (Tree root)).
Definition rl_text (root : elem) (args : pargs) : str := match r_file (rl_run root args) with Some m => file_text m | None => [] end.
Definition rl_w (root : elem) (args : pargs) : effects := [((utf8 "out", utf8 "a.json"), []); ((utf8 "out", utf8 "a.json"), rl_text root args)].
Lemma rl_process root args :
  RunLog.process_log (utf8 "1") (fun _ => Tree root) (fun _ => true) (fun _ => utf8 "X") rl_show args (utf8 "out") rl_disk rl_a
    (rl_w root args) (r_file (rl_run root args)) (r_end (rl_run root args)) (rl_json root args).
Proof.
  unfold rl_w, rl_text. destruct (r_file (rl_run root args)) as [m|] eqn:F.
  - replace (utf8 "a.json") with (json_name (utf8 "a.html")) by (vm_compute; reflexivity). eapply pl_html; [discriminate | | | exact F].
    + replace (disk_after _ rl_disk (utf8 "in", utf8 "a.html")) with (Some (Text [])) by (vm_compute; reflexivity). reflexivity.
    + reflexivity.
  - exfalso. unfold rl_run, parse_spec in F. destruct (json_stage _ _ _ _ _) as [[rs d] e]. discriminate F.
Qed.
Lemma rl_good root skip ignore ig : (match ignore with Some t => arg_lintcode t | None => Some [] end) = Some ig ->
  r_end (rl_run root (mkArgs skip ig)) = Finished ->
  rl_runs root (rl_cmd skip ignore [rl_a; rl_j]) false rl_disk (rl_w root (mkArgs skip ig)) 1
    (Msg (parsing_msg rl_show rl_a) :: map Msg (rl_json root (mkArgs skip ig)) ++ [Msg (parsing_msg rl_show rl_j); Stderr (bad_input rl_show rl_j)]).
Proof.
  intros IG E. unfold RunLog.runs_log. cbn [k_inputs k_ignore k_skip k_validate k_out rl_cmd forallb found rl_disk andb]. rewrite IG.
  rewrite <- (app_nil_r (rl_w root (mkArgs skip ig))). eapply ll_next; [left; vm_compute; reflexivity | apply rl_process | |].
  - rewrite E. destruct (r_file (rl_run root (mkArgs skip ig))) eqn:F; [reflexivity|]. unfold rl_run, parse_spec in F. destruct (json_stage _ _ _ _ _) as [[rs d] e]. discriminate F.
  - apply ll_name. vm_compute. intros [H|[H|[]]]; discriminate.
Qed.
Lemma rl_bad root skip ignore ig x : (match ignore with Some t => arg_lintcode t | None => Some [] end) = Some ig ->
  r_end (rl_run root (mkArgs skip ig)) = Failed x ->
  rl_runs root (rl_cmd skip ignore [rl_a; rl_j]) true rl_disk (rl_w root (mkArgs skip ig)) 1
    (Msg (parsing_msg rl_show rl_a) :: map Msg (rl_json root (mkArgs skip ig)) ++ [Bubble (FParse x); Msg exited_msg] ++ [Stderr []]).
Proof.
  intros IG E. unfold RunLog.runs_log. cbn [k_inputs k_ignore k_skip k_validate k_out rl_cmd forallb found rl_disk andb]. rewrite IG.
  change (FParse x) with (failure_of (Failed x)). rewrite <- E. change [Stderr []] with (if true then [Stderr ((fun _ : failure => [] : str) (failure_of (r_end (rl_run root (mkArgs skip ig)))))] else []).
  eapply ll_fails; [left; vm_compute; reflexivity | apply rl_process|]. rewrite E. reflexivity.
Qed.
Definition texts (es : list entry) : list str := map (fun x => match x with Msg g => g_text g | Bubble _ => bubble_text | Stderr s => s end) es.

(** A document with a figure that fails and one without an id, with --skip-figure-on-error: it
    goes well, and the next input is rejected. *)
Definition rl_doc : elem := o_doc [doc_good; doc_noid; d_fig "Figure 5: Five" [d_row [d_cell "7:0"; d_nest "Outer (OUT): o." [d_sub; d_sub_bad]]]].
Example C89_sample : exists es, rl_runs rl_doc (rl_cmd true None [rl_a; rl_j]) false rl_disk (rl_w rl_doc (mkArgs true [])) 1 es
  /\ texts es =
     [utf8 "parsing 'in/a.html'...";
      utf8 "failed extracting title from figure header 'Figure: N'";
      utf8 "failed to parse row";
      utf8 "failed parsing figure {'fig_id': '5_0', 'parent_fig_id': '5'}";
      utf8 "exception when parsing figure";
      utf8 "  in {'title': 'Figure 5: Five', 'fig_id': '5'}";
      utf8 "Encountered 2 linting errors during processing, see `out/a.json`";
      utf8 "parsing 'in/b.json'...";
      utf8 "cannot operate on NVMe model (JSON), requires the HTML model or docx spec as input" ++ [10]].
Proof. eexists. split; [apply rl_good; [reflexivity | vm_compute; reflexivity] | vm_compute; reflexivity]. Qed.
(** Without it the program gives up. *)
Example C89_sample_fails : exists es, rl_runs rl_doc (rl_cmd false None [rl_a; rl_j]) true rl_disk (rl_w rl_doc (mkArgs false [])) 1 es
  /\ firstn 7 (texts es) =
     [utf8 "parsing 'in/a.html'...";
      utf8 "failed extracting title from figure header 'Figure: N'";
      utf8 "failed to parse row";
      utf8 "failed parsing figure {'fig_id': '5_0', 'parent_fig_id': '5'}";
      utf8 "exception when parsing figure";
      utf8 "  in {'title': 'Figure 5: Five', 'fig_id': '5'}";
      utf8 "unhandled exception bubbled up to top-level"].
Proof. eexists. split; [eapply rl_bad; [reflexivity | vm_compute; reflexivity] | vm_compute; reflexivity]. Qed.

(** A run that goes well, and says no more than that it took place. *)
Lemma rl_zero root skip ignore ig : (match ignore with Some t => arg_lintcode t | None => Some [] end) = Some ig ->
  r_end (rl_run root (mkArgs skip ig)) = Finished ->
  rl_runs root (rl_cmd skip ignore [rl_a]) false rl_disk (rl_w root (mkArgs skip ig)) 0
    (Msg (parsing_msg rl_show rl_a) :: map Msg (rl_json root (mkArgs skip ig)) ++ []).
Proof.
  intros IG E. unfold RunLog.runs_log. cbn [k_inputs k_ignore k_skip k_validate k_out rl_cmd forallb found rl_disk andb]. rewrite IG.
  rewrite <- (app_nil_r (rl_w root (mkArgs skip ig))). eapply ll_next; [left; vm_compute; reflexivity | apply rl_process | | apply ll_end].
  rewrite E. destruct (r_file (rl_run root (mkArgs skip ig))) eqn:F; [reflexivity|]. unfold rl_run, parse_spec in F. destruct (json_stage _ _ _ _ _) as [[rs d] e]. discriminate F.
Qed.
Definition rl_model (root : elem) (args : pargs) : model := match r_file (rl_run root args) with Some m => m | None => empty_model end.
Lemma rl_count root args n : match mo_meta (rl_model root args) with [_; _; _; _; (k, JList [])] => seqb k (utf8 "lint") | _ => false end = true ->
  NoDup (map fst (mo_meta (rl_model root args))) ->
  lint_count (file_text (rl_model root args)) n -> n = 0.
Proof.
  intros E ND (l & m & ls & J & I1 & I2 & ->). apply (proj1 (proj2 (C71_text _))) in J. unfold model_json in J. injection J as ->.
  assert (m = mo_meta (rl_model root args)) as ->.
  { destruct I1 as [I1|[I1|[]]]; [apply (f_equal snd) in I1; cbn [snd] in I1; injection I1 as I1; auto | apply (f_equal snd) in I1; discriminate I1]. }
  destruct (mo_meta (rl_model root args)) as [|a [|b [|c [|e [|[k [| | | |[|]|]] [|]]]]]]; try discriminate E. apply seqb_eq in E. subst k.
  destruct I2 as [->|[->|[->|[->|[[= <-]|[]]]]]]; try reflexivity; exfalso; cbn [map fst] in ND; clear -ND;
    repeat match goal with H : NoDup (_ :: _) |- _ => inversion H; subst; clear H end; cbn [In] in *; tauto.
Qed.
Example C89_sample_clean : exists gs,
  rl_runs (o_doc [doc_good]) (rl_cmd false None [rl_a]) false rl_disk (rl_w (o_doc [doc_good]) (mkArgs false [])) 0 (map Msg gs)
  /\ (forall q t n, In (q, t) (rl_w (o_doc [doc_good]) (mkArgs false [])) -> lint_count t n -> n = 0)
  /\ Forall2 (announces rl_show) [rl_a] gs.
Proof.
  exists [parsing_msg rl_show rl_a]. split.
  - pose proof (rl_zero (o_doc [doc_good]) false None [] eq_refl ltac:(vm_compute; reflexivity)) as H.
    replace (rl_json (o_doc [doc_good]) (mkArgs false [])) with (@nil message) in H by (vm_compute; reflexivity). exact H.
  - split; [|constructor; [apply announced | constructor]].
    intros q t n [I|[I|[]]] L; apply (f_equal snd) in I; cbn [snd] in I; subst t.
    + destruct L as (l & m & ls & J & _). destruct (proj1 (empty_no_json [] _) J).
    + apply (rl_count (o_doc [doc_good]) (mkArgs false [])); [vm_compute; reflexivity | | exact L].
      vm_compute. repeat constructor; cbn [In]; intuition discriminate.
Qed.

(** Codes given with --lint-ignore are left out of the JSON file and of the count, but the
    messages about the figures are shown all the same. *)
Definition rl_failing : elem := o_doc [d_fig "Figure 5: Five" [d_row [d_cell "7:0"; d_nest "Outer (OUT): o." [d_sub; d_sub_bad]]]].
Theorem C89_ignored_refuted : exists k d w es, rl_runs rl_failing k false d w 0 es
  /\ (forall q t n, In (q, t) w -> lint_count t n -> n = 0)
  /\ exists m g, In (Msg g) es /\ for_user "failed parsing figure " m g.
Proof.
  exists (rl_cmd true (Some (utf8 "T1000")) [rl_a]), rl_disk, (rl_w rl_failing (mkArgs true [T1000])). eexists.
  split; [apply rl_zero; vm_compute; reflexivity|]. split.
  - intros q t n [I|[I|[]]] L; apply (f_equal snd) in I; cbn [snd] in I; subst t.
    + destruct L as (l & m & ls & J & _). destruct (proj1 (empty_no_json [] _) J).
    + apply (rl_count rl_failing (mkArgs true [T1000])); [vm_compute; reflexivity | | exact L].
      vm_compute. repeat constructor; cbn [In]; intuition discriminate.
  - exists (sub_meta (utf8 "5") (utf8 "0")), (failed_msg (fun _ => true) (utf8 "nvm") (utf8 "9.9") (fun _ => utf8 "X") (sub_meta (utf8 "5") (utf8 "0")) NvmFig23).
    split; [|apply MsgFlow.failed_ok]. right. apply in_or_app. left. apply in_map. apply (nth_error_In _ 1). vm_compute. reflexivity.
Qed.
(** The program asks the user to look for the figures in the messages above; there need not be
    any. *)
Theorem C89_above_refuted : exists k d w es t f g,
  rl_runs (o_doc [t]) k true d w 1 es /\ rowless t
  /\ es = [Msg (parsing_msg rl_show rl_a); Bubble f; Msg g; Stderr []] /\ gives_up g.
Proof.
  exists (rl_cmd true None [rl_a; rl_j]), rl_disk, (rl_w (o_doc [d_table []]) (mkArgs true [])). eexists. exists (d_table []), (FParse (PDoc EXPath)), exited_msg.
  split; [eapply rl_bad; [reflexivity | vm_compute; reflexivity]|]. split.
  - pose proof (DocProofs.classify_spec (d_table [])) as H. vm_compute in H. exact H.
  - split; [|apply given_up]. replace (rl_json (o_doc [d_table []]) (mkArgs true [])) with (@nil message) by (vm_compute; reflexivity). reflexivity.
Qed.

Print Assumptions C89_same.
Print Assumptions C89_told.
Print Assumptions C89_announced.
Print Assumptions C89_status.
Print Assumptions C89_clean.
Print Assumptions C89_console.
Print Assumptions C89_ignored_refuted.
Print Assumptions C89_above_refuted.
