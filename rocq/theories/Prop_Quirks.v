(** C95: special treatment is confined to the figures of the documents it is for. *)
From Coq Require Import NArith ZArith List Bool String Lia.
From Verif Require Import PyStr PyStrFacts Xml Json Lint RowIter Helpers Extract Document Output JsonText SpecDoc SpecOutput SpecQuirks
  SpecAlike AlikeProofs DocProofs Prop_Output Prop_Alike.
Import ListNotations.
Local Open Scope list_scope.

(** ** The tables of special treatments *)

Lemma labels_flat :
  flat_map (fun q => map (fun o => (fst (fst q), snd (fst q), fst (fst o), snd (fst o), snd o)) (fst (snd q))) QUIRKS_MAP
  = map (fun q => let '(n, v, f, x, y) := q in (utf8 n, utf8 v, utf8 f, utf8 x, utf8 y)) labels_by_hand.
Proof. vm_compute. reflexivity. Qed.
Lemma labels_once : forall q q', In q labels_by_hand -> In q' labels_by_hand ->
  let '(n, v, f, x, y) := q in let '(n', v', f', x', y') := q' in
  utf8 n = utf8 n' -> utf8 v = utf8 v' -> utf8 f = utf8 f' -> utf8 x = utf8 x' -> utf8 y = utf8 y'.
Proof.
  assert (C : forallb (fun q => forallb (fun q' => let '(n, v, f, x, y) := q in let '(n', v', f', x', y') := q' in
    negb (seqb (utf8 n) (utf8 n') && seqb (utf8 v) (utf8 v') && seqb (utf8 f) (utf8 f') && seqb (utf8 x) (utf8 x')) || seqb (utf8 y) (utf8 y')) labels_by_hand) labels_by_hand = true)
    by (vm_compute; reflexivity).
  intros q q' I I'. rewrite forallb_forall in C. specialize (C q I). rewrite forallb_forall in C. specialize (C q' I'). clear I I'.
  destruct q as [[[[n v] f] x] y], q' as [[[[n' v'] f'] x'] y']. intros E1 E2 E3 E4. rewrite E1, E2, E3, E4, !seqb_refl in C. cbn [andb negb orb] in C. apply seqb_eq, C.
Qed.
Lemma docs_once : forall q q', In q QUIRKS_MAP -> In q' QUIRKS_MAP -> fst q = fst q' -> q = q'.
Proof.
  intros q q' I I' E. assert (K : In (fst q) (map fst QUIRKS_MAP)) by (apply in_map, I).
  assert (ND : NoDup (map fst QUIRKS_MAP)).
  { assert (D : forall (l : list (str * str)), forallb (fun b => b) (map (fun n => negb (existsb (fun p => seqb (fst p) (fst (nth n l ([], []))) && seqb (snd p) (snd (nth n l ([], [])))) (skipn (S n) l))) (seq 0 (List.length l))) = true -> NoDup l).
    { induction l as [|a l IH]; intros H; [constructor|]. cbn [List.length seq map forallb] in H. apply andb_true_iff in H as [H1 H2]. constructor.
      - intros J. cbn [nth skipn] in H1. apply negb_true_iff in H1. assert (X : existsb (fun p => seqb (fst p) (fst a) && seqb (snd p) (snd a)) l = true) by (apply existsb_exists; exists a; split; [exact J | rewrite !seqb_refl; reflexivity]). congruence.
      - apply IH. rewrite <- seq_shift, map_map in H2. exact H2. }
    apply D. vm_compute. reflexivity. }
  clear K. revert ND I I' E. generalize QUIRKS_MAP. induction l as [|p l IH]; cbn [map In]; intros ND I I' E; [contradiction|]. inversion ND as [|? ? NI ND']; subst.
  destruct I as [->|I], I' as [->|I']; [reflexivity| | |apply IH; assumption].
  - exfalso. apply NI. rewrite E. apply in_map, I'.
  - exfalso. apply NI. rewrite <- E. apply in_map, I.
Qed.

(** The labels set by hand are exactly the listed ones. *)
Theorem C95_labels : forall skip name rev fig val l,
  override_of (p_label_overrides (get_parser skip name rev)) fig val = Some l <->
  exists n v f x y, In (n, v, f, x, y) labels_by_hand /\ name = utf8 n /\ rev = utf8 v /\ fig = utf8 f /\ val = utf8 x /\ l = utf8 y.
Proof.
  assert (A : forall skip name rev fig val l, override_of (p_label_overrides (get_parser skip name rev)) fig val = Some l ->
    exists n v f x y, In (n, v, f, x, y) labels_by_hand /\ name = utf8 n /\ rev = utf8 v /\ fig = utf8 f /\ val = utf8 x /\ l = utf8 y).
  { intros skip name rev fig val l. unfold get_parser.
    destruct (find _ QUIRKS_MAP) as [[kr [lo fo]]|] eqn:F; [|intros H; discriminate H]. apply find_some in F as [I E]. cbn [fst snd] in E. apply andb_true_iff in E as [E1 E2].
    apply seqb_eq in E1, E2. cbn [p_label_overrides]. unfold override_of. destruct (find _ lo) as [[[a b] c]|] eqn:G; [|discriminate]. apply find_some in G as [J E].
    cbn [fst snd] in E. apply andb_true_iff in E as [E3 E4]. apply seqb_eq in E3, E4. cbn [snd]. intros [= <-]. subst name rev a b.
    assert (K : In (fst kr, snd kr, fig, val, c) (map (fun q => let '(n, v, f, x, y) := q in (utf8 n, utf8 v, utf8 f, utf8 x, utf8 y)) labels_by_hand)).
    { rewrite <- labels_flat. apply in_flat_map. exists (kr, (lo, fo)). split; [exact I|]. cbn [fst snd]. apply in_map_iff. exists (fig, val, c). split; [reflexivity | exact J]. }
    apply in_map_iff in K as ([[[[n v] f] x] y] & E & K). exists n, v, f, x, y. split; [exact K|].
    pose proof (f_equal (fun q => fst (fst (fst (fst q)))) E) as X1. pose proof (f_equal (fun q => snd (fst (fst (fst q)))) E) as X2. pose proof (f_equal (fun q => snd (fst (fst q))) E) as X3.
    pose proof (f_equal (fun q => snd (fst q)) E) as X4. pose proof (f_equal snd E) as X5. cbn [fst snd] in *. auto 10. }
  intros skip name rev fig val l. split; [apply A|].
  intros (n & v & f & x & y & I & -> & -> & -> & -> & ->).
  assert (S : override_of (p_label_overrides (get_parser skip (utf8 n) (utf8 v))) (utf8 f) (utf8 x) <> None).
  { assert (K : In (utf8 n, utf8 v, utf8 f, utf8 x, utf8 y) (map (fun q => let '(n, v, f, x, y) := q in (utf8 n, utf8 v, utf8 f, utf8 x, utf8 y)) labels_by_hand))
      by (apply in_map_iff; exists (n, v, f, x, y); split; [reflexivity | exact I]).
    rewrite <- labels_flat in K. apply in_flat_map in K as ([kr [lo fo]] & J & K). cbn [fst snd] in K. apply in_map_iff in K as ([[a b] c] & E & K).
    pose proof (f_equal (fun q => fst (fst (fst (fst q)))) E) as X1. pose proof (f_equal (fun q => snd (fst (fst (fst q)))) E) as X2. pose proof (f_equal (fun q => snd (fst (fst q))) E) as X3.
    pose proof (f_equal (fun q => snd (fst q)) E) as X4. cbn [fst snd] in *. unfold get_parser. destruct (find _ QUIRKS_MAP) as [[kr' [lo' fo']]|] eqn:F.
    - apply find_some in F as [J' EF]. cbn [fst snd] in EF. apply andb_true_iff in EF as [E1 E2]. apply seqb_eq in E1, E2.
      assert (Q : (kr, (lo, fo)) = (kr', (lo', fo'))) by (apply docs_once; [exact J | exact J' |]; cbn [fst]; destruct kr, kr'; cbn [fst snd] in *; congruence).
      injection Q as <- <- <-. cbn [p_label_overrides]. unfold override_of. destruct (find _ lo) eqn:G; [discriminate|]. pose proof (find_none _ _ G _ K) as NG. cbn [fst snd] in NG.
      rewrite X3, X4, !seqb_refl in NG. discriminate.
    - pose proof (find_none _ _ F _ J) as NG. cbn [fst snd] in NG. rewrite X1, X2, !seqb_refl in NG. discriminate. }
  destruct (override_of _ _ _) as [l|] eqn:O; [|contradiction]. destruct (A _ _ _ _ _ _ O) as (n' & v' & f' & x' & y' & I' & E1 & E2 & E3 & E4 & ->).
  f_equal. symmetry. exact (labels_once (n, v, f, x, y) (n', v', f', x', y') I I' E1 E2 E3 E4).
Qed.

(** ** Ordinary figures *)

Definition underb (r f : str) : bool := seqb r f || startswith (r ++ [95%N]) f.
Lemma underb_iff r f : underb r f = true -> under r f.
Proof.
  unfold underb. intros H. apply orb_true_iff in H as [H|H]; [left; symmetry; apply seqb_eq, H|]. right. apply startswith_app in H as [k ->]. exists k. rewrite <- app_assoc. reflexivity.
Qed.
Definition quirk_figs (q : (str * str) * quirks) : list str := map (fun o => fst (fst o)) (fst (snd q)) ++ map fst (snd (snd q)).
Lemma figs_special kr lo fo f : In (kr, (lo, fo)) QUIRKS_MAP -> In f (quirk_figs (kr, (lo, fo))) -> exists r, special_figure (fst kr) (snd kr) r /\ under r f.
Proof.
  assert (C : forallb (fun q => forallb (fun f => existsb (fun d => let '(n, v, fs) := d in
    seqb (fst (fst q)) (utf8 n) && seqb (snd (fst q)) (utf8 v) && existsb (fun g => underb (utf8 g) f) fs) known_documents) (quirk_figs q)) QUIRKS_MAP = true) by (vm_compute; reflexivity).
  intros I J. rewrite forallb_forall in C. specialize (C _ I). rewrite forallb_forall in C. specialize (C f J). apply existsb_exists in C as ([[n v] fs] & K & C).
  cbn [fst] in C. apply andb_true_iff in C as [C D]. apply andb_true_iff in C as [C1 C2]. apply seqb_eq in C1, C2. apply existsb_exists in D as (g & G & D).
  exists (utf8 g). split; [exists n, v, fs, g; auto | apply underb_iff, D].
Qed.
Lemma special_plain name rev r : special_figure name rev r -> ~ In 95%N r.
Proof.
  intros (n & v & fs & f & I & _ & _ & J & ->).
  assert (C : forallb (fun d => forallb (fun f => forallb (fun c => negb (N.eqb c 95)) (utf8 f)) (snd d)) known_documents = true) by (vm_compute; reflexivity).
  rewrite forallb_forall in C. specialize (C _ I). cbn [snd] in C. rewrite forallb_forall in C. specialize (C _ J). rewrite forallb_forall in C.
  intros K. specialize (C _ K). discriminate C.
Qed.
Lemma ordinary_nested name rev f k : ordinary name rev f -> ordinary name rev (f ++ [95%N] ++ k).
Proof.
  intros O r S U. apply (O r S). pose proof (special_plain _ _ _ S) as NR. destruct U as [E|[q E]].
  - exfalso. apply NR. rewrite <- E. apply in_app_iff. right. left. reflexivity.
  - cbn [app] in E. clear O S. revert r NR E. induction f as [|c f IH]; intros [|d r] NR E; cbn [app] in E.
    + left. reflexivity.
    + injection E as E1 _. exfalso. apply NR. left. symmetry. exact E1.
    + injection E as -> _. right. exists f. reflexivity.
    + injection E as -> E. destruct (IH r (fun H => NR (or_intror H)) E) as [->|[j ->]]; [left; reflexivity | right; exists j; reflexivity].
Qed.
Lemma ordinary_plain skip name rev f : ordinary name rev f ->
  lookup_fig (p_fig_overrides (get_parser skip name rev)) f = None /\ forall v, override_of (p_label_overrides (get_parser skip name rev)) f v = None.
Proof.
  intros O. unfold get_parser. destruct (find _ QUIRKS_MAP) as [[kr [lo fo]]|] eqn:F; [|split; reflexivity].
  apply find_some in F as [I E]. cbn [fst snd] in E. apply andb_true_iff in E as [E1 E2]. apply seqb_eq in E1, E2. subst name rev.
  assert (NF : ~ In f (quirk_figs (kr, (lo, fo)))). { intros J. destruct (figs_special _ _ _ _ I J) as (r & S & U). exact (O r S U). }
  unfold quirk_figs in NF. cbn [fst snd] in NF. rewrite in_app_iff in NF. cbn [p_fig_overrides p_label_overrides]. split.
  - unfold lookup_fig. destruct (find _ fo) as [[g c]|] eqn:G; [|reflexivity]. exfalso. apply NF. right. apply find_some in G as [J E]. cbn [fst] in E. apply seqb_eq in E. subst g.
    apply in_map_iff. exists (f, c). auto.
  - intros v. unfold override_of. destruct (find _ lo) as [[[g w] c]|] eqn:G; [|reflexivity]. exfalso. apply NF. left. apply find_some in G as [J E]. cbn [fst snd] in E.
    apply andb_true_iff in E as [E _]. apply seqb_eq in E. subst g. apply in_map_iff. exists (f, w, c). auto.
Qed.
Lemma ordinary_agree skip name rev name' rev' :
  agree (fun f => ordinary name rev f /\ ordinary name' rev' f) (get_parser skip name rev) (get_parser skip name' rev').
Proof.
  split; [unfold get_parser; repeat destruct (find _ _) as [[? [? ?]]|]; reflexivity|]. split; [intros f k [A C]; split; apply ordinary_nested; assumption|].
  split; [intros f [A C]; rewrite (proj1 (ordinary_plain skip _ _ _ A)), (proj1 (ordinary_plain skip _ _ _ C)); reflexivity|]. split.
  - intros f c pre g [A C] L. rewrite (proj1 (ordinary_plain skip _ _ _ A)) in L. discriminate.
  - intros f v [A C]. rewrite (proj2 (ordinary_plain skip _ _ _ A)), (proj2 (ordinary_plain skip _ _ _ C)). reflexivity.
Qed.
Lemma N_refl e : N e e.
Proof.
  destruct e as [t a x ks]. repeat split. cbn [e_kids]. induction ks as [|k ks IH]; [constructor|]. constructor; [split; [apply alike_refl | reflexivity] | exact IH].
Qed.

(** A figure that is special in neither of two documents is treated in the same way in both. *)
Theorem C95_figure : forall skip name rev name' rev' m tbl f, ordinary name rev (m_fig m) -> ordinary name' rev' (m_fig m) ->
  parse_figure (get_parser skip name rev) m tbl f = parse_figure (get_parser skip name' rev') m tbl f.
Proof.
  intros skip name rev name' rev' m tbl f O O'. apply r_run, (figure2 _ _ _ m tbl tbl (ordinary_agree skip name rev name' rev')); [split; assumption | apply N_refl].
Qed.

Lemma same_doc skip name rev name' rev' root root' :
  children (utf8 "body") root = children (utf8 "body") root' -> ordinary_figures name rev root -> ordinary_figures name' rev' root ->
  parse_doc (get_parser skip name rev) root = parse_doc (get_parser skip name' rev') root'.
Proof.
  intros B O O'. unfold parse_doc. replace (figures root') with (figures root) by (unfold figures; change t_body with (utf8 "body"); rewrite B; reflexivity).
  rewrite (r_run _ (parse_tables (get_parser skip name' rev') 0%N (figures root)) false); [reflexivity|].
  apply (tables2 _ _ _ _ _ (ordinary_agree skip name rev name' rev')).
  - induction (figures root) as [|t l IH]; [constructor | constructor; [apply N_refl | exact IH]].
  - intros t m tbl I C. apply identified_iff in C as (u & tr & tl & a & b & id & U & K & T & FA & TI & -> & _). cbn [m_fig].
    unfold figures in I. apply in_flat_map in I as (bd & IB & IT).
    assert (TT : title_text t (to_text tr)).
    { exists u, tr, (children t_tr (Elem [] [] [] b)). split; [exact U|]. split; [|reflexivity]. unfold children, kids_of. rewrite K. cbn [e_kids]. rewrite filter_app.
      assert (E : filter (fun k => seqb (e_tag (fst k)) t_tr) a = []).
      { clear - FA. induction FA as [|k a H FA IH]; [reflexivity|]. cbn [filter]. destruct (seqb _ _) eqn:E; [apply seqb_eq in E; contradiction | exact IH]. }
      rewrite E. cbn [app filter fst]. rewrite T, seqb_refl. reflexivity. }
    split; [exact (O bd t _ id IB IT TT TI) | exact (O' bd t _ id IB IT TT TI)].
Qed.
Lemma write_meta_free progress total evs : forall i w ms ms' es,
  let '(rs, d, o) := write_events progress total i evs w (mkModel ms es) in
  mo_meta d = ms /\ write_events progress total i evs w (mkModel ms' es) = (rs, mkModel ms' (mo_entities d), o).
Proof.
  induction evs as [|[l|e] evs IH]; intros i w ms ms' es; cbn [write_events].
  - split; reflexivity.
  - apply IH.
  - destruct progress.
    + destruct (take_one w) as [w'|]; [|split; reflexivity]. unfold write_entity. cbn [mo_meta mo_entities]. specialize (IH (N.succ i) w' ms ms' (es ++ [entity_json e])).
      destruct (write_events true total (N.succ i) evs w' {| mo_meta := ms; mo_entities := es ++ [entity_json e] |}) as [[rs d] o]. destruct IH as [A ->]. split; [exact A | reflexivity].
    + unfold write_entity. cbn [mo_meta mo_entities]. apply IH.
Qed.

(** Two documents with the same body whose figures are special in neither: the runs on them are
    the same, and so are the JSON files but for the name and the revision. *)
Theorem C95_run : forall version args progress w root root' k v k' v',
  children (utf8 "body") root = children (utf8 "body") root' ->
  first_attr root "data-spec" k -> first_attr root "data-revision" v ->
  first_attr root' "data-spec" k' -> first_attr root' "data-revision" v' ->
  ordinary_figures (lower k) (lower v) root -> ordinary_figures (lower k') (lower v') root ->
  let r := parse_spec version args progress w (Html (Tree root)) in
  let r' := parse_spec version args progress w (Html (Tree root')) in
  r_reports r = r_reports r' /\ r_end r = r_end r'
  /\ (w = Some 0%N /\ r_file r = None /\ r_file r' = None
      \/ exists d d', r_file r = Some d /\ r_file r' = Some d' /\ same_but_name (lower k) (lower v) (lower k') (lower v') d d').
Proof.
  intros version args progress w root root' k v k' v' B [rk HK] %first_attr_iff [rv HV] %first_attr_iff [rk' HK'] %first_attr_iff [rv' HV'] %first_attr_iff O O'. cbv zeta.
  unfold parse_spec. assert (W : w = Some 0%N \/ w <> Some 0%N) by (destruct w as [[|p]|]; [left; reflexivity | right; discriminate | right; discriminate]).
  destruct W as [->|W]; [repeat split; left; repeat split|].
  assert (M : forall A (a b : A), match w with Some 0%N => a | _ => b end = b) by (intros A a b; destruct w as [[|p]|]; [contradiction | reflexivity | reflexivity]). rewrite !M.
  unfold json_stage, open_doc. rewrite HK, HV, HK', HV'.
  rewrite <- (same_doc (a_skip args) _ _ _ _ root root' B O O').
  assert (NF : num_figures root = num_figures root') by (unfold num_figures, figures; change t_body with (utf8 "body"); rewrite B; reflexivity). rewrite <- NF. cbv zeta.
  destruct (parse_doc _ root) as [r evs].
  set (rest := [(utf8 "format version", JInt 1); (utf8 "spex version", JStr version)]).
  assert (D : forall a b, write_meta (utf8 "spex version") (JStr version) (write_meta (utf8 "format version") (JInt 1) (write_meta (utf8 "revision") (JStr b) (write_meta (utf8 "specification") (JStr a) empty_model)))
    = mkModel ((utf8 "specification", JStr a) :: (utf8 "revision", JStr b) :: rest) []) by (intros a b; reflexivity). rewrite !D.
  pose proof (write_meta_free progress (num_figures root) evs 0%N w ((utf8 "specification", JStr (lower k)) :: (utf8 "revision", JStr (lower v)) :: rest)
    ((utf8 "specification", JStr (lower k')) :: (utf8 "revision", JStr (lower v')) :: rest) []) as F.
  destruct (write_events progress (num_figures root) 0%N evs w (mkModel ((utf8 "specification", JStr (lower k)) :: _) [])) as [[rs d] o]. destruct F as [E ->].
  assert (L : forall a b l, mo_meta (write_meta (utf8 "lint") l (mkModel ((utf8 "specification", JStr a) :: (utf8 "revision", JStr b) :: rest) (mo_entities d)))
    = (utf8 "specification", JStr a) :: (utf8 "revision", JStr b) :: rest ++ [(utf8 "lint", l)]) by (intros a b l; reflexivity).
  destruct d as [ms es]. cbn [mo_meta mo_entities] in *. subst ms.
  assert (S0 : forall l, same_but_name (lower k) (lower v) (lower k') (lower v') (write_meta (utf8 "lint") l (mkModel ((utf8 "specification", JStr (lower k)) :: (utf8 "revision", JStr (lower v)) :: rest) es))
    (write_meta (utf8 "lint") l (mkModel ((utf8 "specification", JStr (lower k')) :: (utf8 "revision", JStr (lower v')) :: rest) es))).
  { intros l. split; [reflexivity|]. exists (rest ++ [(utf8 "lint", l)]). split; apply L. }
  assert (S1 : same_but_name (lower k) (lower v) (lower k') (lower v') (mkModel ((utf8 "specification", JStr (lower k)) :: (utf8 "revision", JStr (lower v)) :: rest) es)
    (mkModel ((utf8 "specification", JStr (lower k')) :: (utf8 "revision", JStr (lower v')) :: rest) es)).
  { split; [reflexivity|]. exists rest. split; reflexivity. }
  destruct o as [w'|]; [destruct r as [u|e|]|]; cbn [r_reports r_end r_file]; (split; [reflexivity|]); (split; [reflexivity|]); right; do 2 eexists;
    (split; [reflexivity|]); (split; [reflexivity|]); first [apply S0 | apply S1].
Qed.

(** ** Samples *)

Definition q_doc (name rev fig : string) : elem :=
  Elem (utf8 "html") [] []
    [(Elem (utf8 "head") [] [] [(Elem (utf8 "meta") [(utf8 "data-spec", utf8 name); (utf8 "data-revision", utf8 rev)] [] [], [])], []);
     (Elem (utf8 "body") [] []
       [(Elem (utf8 "table") [] []
          [(Elem (utf8 "tr") [] [] [(Elem (utf8 "td") [] [] [(leaf "p" [] fig, [])], [])], []);
           (Elem (utf8 "tr") [] [] [(Elem (utf8 "td") [] [] [(leaf "p" [] "Value", [])], []); (Elem (utf8 "td") [] [] [(leaf "p" [] "Definition", [])], [])], []);
           (Elem (utf8 "tr") [] [] [(Elem (utf8 "td") [] [] [(leaf "p" [] "1", [])], []); (Elem (utf8 "td") [] [] [(leaf "p" [] "Zone State: a state", [])], [])], [])], [])], [])].
Definition zns : string := "NVM Express® Zoned Namespace Command Set Specification".
Definition q_run (name rev fig : string) : run := parse_spec (utf8 "1.0") (mkArgs false []) false None (Html (Tree (q_doc name rev fig))).

Lemma q_ordinary name rev name' rev' i :
  (forall r, special_figure name' rev' r -> ~ under r i) -> title_id (to_text (leaf "p" [] ("Figure 38: States"))) i ->
  ordinary_figures name' rev' (q_doc name rev "Figure 38: States").
Proof.
  intros H TI b t s id IB IT TT TI'. destruct IB as [<-|[]]. destruct IT as [<-|[]]. destruct TT as (u & tr & trs & U & C & ->).
  replace id with i; [exact H|]. apply figure_id_iff in TI, TI'.
  pose proof (unwrap_spec (Elem (utf8 "table") [] [] (e_kids (match children (utf8 "table") (match children (utf8 "body") (q_doc name rev "Figure 38: States") with b :: _ => b | [] => leaf "" [] "" end) with t :: _ => t | [] => leaf "" [] "" end)))) as U'.
  assert (UE : u = unwrap_table (Elem (utf8 "table") [] [] (e_kids (match children (utf8 "table") (match children (utf8 "body") (q_doc name rev "Figure 38: States") with b :: _ => b | [] => leaf "" [] "" end) with t :: _ => t | [] => leaf "" [] "" end)))).
  { apply (unwrapped_fun _ _ _ U U'). }
  rewrite UE in C. vm_compute in C. injection C as <- _. vm_compute in TI, TI'. congruence.
Qed.
Lemma ordinary38 name rev : ordinary name rev (utf8 "38").
Proof.
  intros r (n & v & fs & f & I & _ & _ & J & ->) U.
  assert (C : forallb (fun d => forallb (fun f => negb (underb (utf8 f) (utf8 "38"))) (snd d)) known_documents = true) by (vm_compute; reflexivity).
  rewrite forallb_forall in C. specialize (C _ I). cbn [snd] in C. rewrite forallb_forall in C. specialize (C _ J). apply negb_true_iff in C. unfold underb in C. apply orb_false_iff in C as [C D].
  destruct U as [U|[k U]].
  - rewrite <- U, seqb_refl in C. discriminate.
  - assert (S0 : startswith (utf8 f ++ [95%N]) (utf8 "38") = true) by (apply startswith_app; exists k; rewrite U, <- app_assoc; reflexivity). congruence.
Qed.

(** Figure 38 of the document on zones gives what it would give in any other document, whose name
    and revision are all that differs. *)
Example C95_sample :
  children (utf8 "body") (q_doc zns "1.1C" "Figure 38: States") = children (utf8 "body") (q_doc "Demo" "9" "Figure 38: States")
  /\ ordinary_figures (lower (utf8 zns)) (lower (utf8 "1.1C")) (q_doc zns "1.1C" "Figure 38: States")
  /\ ordinary_figures (lower (utf8 "Demo")) (lower (utf8 "9")) (q_doc zns "1.1C" "Figure 38: States")
  /\ special_figure (lower (utf8 zns)) (lower (utf8 "1.1C")) (utf8 "37")
  /\ r_end (q_run zns "1.1C" "Figure 38: States") = Finished
  /\ exists d d', r_file (q_run zns "1.1C" "Figure 38: States") = Some d /\ r_file (q_run "Demo" "9" "Figure 38: States") = Some d'
     /\ mo_entities d = mo_entities d' /\ mo_entities d <> [] /\ d <> d'.
Proof.
  split; [reflexivity|]. split; [apply (q_ordinary _ _ _ _ (utf8 "38")); [apply ordinary38 | apply figure_id_iff; vm_compute; reflexivity]|].
  split; [apply (q_ordinary _ _ _ _ (utf8 "38")); [apply ordinary38 | apply figure_id_iff; vm_compute; reflexivity]|].
  split; [exists "nvm express® zoned namespace command set specification"%string, "1.1c"%string, ["37"%string], "37"%string; (split; [right; left; reflexivity|]); (split; [vm_compute; reflexivity|]); (split; [vm_compute; reflexivity|]); split; [left; reflexivity | reflexivity]|].
  split; [vm_compute; reflexivity|]. eexists. eexists. split; [vm_compute; reflexivity|]. split; [vm_compute; reflexivity|]. cbn [mo_entities]. repeat split; discriminate.
Qed.
(** For a special figure it is otherwise: figure 37 of that document gives another label. *)
Theorem C95_special_refuted :
  exists d d', r_file (q_run zns "1.1C" "Figure 37: States") = Some d /\ r_file (q_run "Demo" "9" "Figure 37: States") = Some d'
    /\ mo_entities d <> mo_entities d' /\ contains (utf8 """label"": ""zs""") (file_text d) = true.
Proof.
  eexists. eexists. split; [vm_compute; reflexivity|]. split; [vm_compute; reflexivity|]. cbn [mo_entities]. split; [discriminate | vm_compute; reflexivity].
Qed.

Print Assumptions C95_labels.
Print Assumptions C95_figure.
Print Assumptions C95_run.
Print Assumptions C95_sample.
Print Assumptions C95_special_refuted.
