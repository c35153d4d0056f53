(** The rules of the style sheet for tags: proofs. *)
From Coq Require Import NArith ZArith List Bool String Lia.
From Coq Require Import ZifyBool ZifyN ZifyNat.
From Verif Require Import PyStr PyStrFacts Xml Docx Render Css SpecText SpecFmt SpecHtml SpecCss CssRead CssProofs CssCascade.
Import ListNotations.
Local Open Scope string_scope.
Local Open Scope list_scope.
Local Open Scope N_scope.

Lemma looks_iff p k v : In (k, v) (css_attrs p) <-> looks p k v.
Proof.
  split.
  - unfold css_attrs. intros I. repeat (apply in_app_iff in I as [I|I]).
    + destruct (rp_bold p) as [[]|] eqn:E; try (exfalso; exact I); destruct I as [[= <- <-]|[]]; constructor; exact E.
    + destruct (rp_italics p) as [[]|] eqn:E; try (exfalso; exact I); destruct I as [[= <- <-]|[]]; constructor; exact E.
    + destruct (rp_underline p) eqn:E1, (rp_strike p) eqn:E2; cbn [app] in I; try (exfalso; exact I); destruct I as [[= <- <-]|[]];
        [apply (lo_both p) | apply (lo_underline p) | apply (lo_strike p)]; congruence.
    + destruct (rp_valign p) as [[]|] eqn:E; try (exfalso; exact I); destruct I as [[= <- <-]|[]]; constructor; exact E.
    + destruct (rp_color p) as [c|] eqn:E; try (exfalso; exact I); destruct I as [[= <- <-]|[]]. apply (lo_color p). exact E.
  - unfold css_attrs. intros L. rewrite !in_app_iff. inversion L as [E|E|E|E|E1 E2|E1 E2|E1 E2|E|E|E|c E]; subst; rewrite ?E, ?E1, ?E2;
      try (destruct (rp_underline p) eqn:U; [|congruence]); try (destruct (rp_strike p) eqn:K; [|congruence]); cbn [app In]; tauto.
Qed.


Definition styled_props : list str := map utf8 ["font-weight"; "font-style"; "text-decoration-line"; "vertical-align"; "color"; "background-color"; "list-style-type"].
Lemma looks_prop p k v : looks p k v -> In k styled_props.
Proof. destruct 1; unfold styled_props; cbn [map In]; tauto. Qed.
Lemma fixed_only num c pl k pr v : ~ In k styled_props -> (applies (sheet_rules num c) pl k pr v <-> applies fixed_rules pl k pr v).
Proof.
  intros NK. split; [|apply applies_app_l]. intros (n & ls & ds & l & N & I & M & D & E). exists n, ls, ds, l. split; [|auto].
  unfold sheet_rules in N. destruct (Nat.lt_ge_cases n (List.length fixed_rules)) as [L1|L1]; [rewrite nth_error_app1 in N by exact L1; exact N|]. exfalso. apply NK.
  rewrite nth_error_app2 in N by exact L1. apply nth_error_In in N. destruct D as (x & y & -> & _). apply in_app_iff in N as [N|N]; apply in_map_iff in N as (r & R & IR).
  - unfold list_rule in R. injection R as _ R. destruct x as [|x1 x]; [injection R as <- _; unfold styled_props; cbn [map In]; tauto | destruct x; discriminate R].
  - destruct r as [m at_]. unfold class_rule in R. cbn [fst snd] in R. injection R as _ ->. apply in_app_iff in IR as [IR|IR]; unfold emit_rules in IR; apply in_map_iff in IR as ([q m'] & R & _); injection R as _ R.
    + assert (Q : In (k, v) (css_attrs q)) by (rewrite R; apply in_or_app; right; left; reflexivity). apply looks_iff in Q. exact (looks_prop _ _ _ Q).
    + assert (Q : In (k, v) (fill_css q)) by (rewrite R; apply in_or_app; right; left; reflexivity). unfold fill_css in Q. destruct (smem _ _); [destruct Q|]. destruct Q as [[= <- _]|[]]. unfold styled_props; cbn [map In]; tauto.
Qed.
Lemma fixed_cascaded num c pl k v : ~ In k styled_props -> (cascaded (sheet_rules num c) pl k v <-> cascaded fixed_rules pl k v).
Proof.
  intros NK. unfold cascaded. split; intros (pr & A & M); exists pr; (split; [apply (fixed_only num c pl k pr v NK); exact A|]); intros pr' v' A'; apply (M pr' v'), (fixed_only num c pl k pr' v' NK); exact A'.
Qed.
(** The rules for tags, each with one selector, innermost first. *)
Definition flat : list (priority * list simple * list (str * str)) :=
  flat_map (fun nr : nat * rule => map (fun l => ((count_some s_class l + count_some s_pseudo l, count_some s_tag l, fst nr)%nat, List.rev l, snd (snd nr))) (fst (snd nr)))
    (combine (seq 0 (List.length fixed_rules)) fixed_rules).
Lemma fixed_flat pl k pr v : applies fixed_rules pl k pr v <-> exists sel ds, In (pr, sel, ds) flat /\ matches sel pl /\ In (k, v) ds.
Proof.
  assert (ND : forall ls ds, In (ls, ds) fixed_rules -> NoDup (map fst ds)).
  { intros ls ds I. unfold fixed_rules in I. repeat (destruct I as [E|I]; [injection E as <- <-; cbn [map fst]; repeat (constructor; [intros H; vm_compute in H; repeat (destruct H as [H|H]; [discriminate|]); exact H|]); constructor|]). destruct I. }
  assert (CB : forall n r, In (n, r) (combine (seq 0 (List.length fixed_rules)) fixed_rules) <-> nth_error fixed_rules n = Some r).
  { intros n r. generalize fixed_rules as l. intros l. enough (X : forall s, In (n, r) (combine (seq s (List.length l)) l) <-> (s <= n)%nat /\ nth_error l (n - s) = Some r) by (rewrite (X O), Nat.sub_0_r; split; [tauto | split; [lia | assumption]]).
    induction l as [|x l IH]; intros s; cbn [List.length seq combine In]; [split; [intros [] | intros [_ H]; destruct (n - s)%nat; discriminate]|].
    rewrite IH. split.
    - intros [[= <- <-]|[L E]]; [split; [lia|]; rewrite Nat.sub_diag; reflexivity|]. split; [lia|]. replace (n - s)%nat with (S (n - S s)) by lia. exact E.
    - intros [L E]. destruct (Nat.eq_dec n s) as [->|NE]; [left; rewrite Nat.sub_diag in E; injection E as ->; reflexivity|]. right. split; [lia|].
      replace (n - s)%nat with (S (n - S s)) in E by lia. exact E. }
  split.
  - intros (n & ls & ds & l & N & I & M & D & ->). exists (List.rev l), ds. split; [|split; [exact M | apply declares_in; [exact (ND _ _ (nth_error_In _ _ N)) | exact D]]].
    apply in_flat_map. exists (n, (ls, ds)). split; [apply CB; exact N|]. apply in_map_iff. exists l. auto.
  - intros (sel & ds & I & M & D). apply in_flat_map in I as ([n [ls ds']] & IC & I). apply in_map_iff in I as (l & E & IL). cbn [fst snd] in E. injection E as <- <- ->. apply CB in IC.
    exists n, ls, ds, l. repeat (split; [assumption|]). split; [apply declares_in; [exact (ND _ _ (nth_error_In _ _ IC)) | exact D] | reflexivity].
Qed.
Lemma flat_cascaded pl k v : cascaded fixed_rules pl k v <-> exists pr, (exists sel ds, In (pr, sel, ds) flat /\ matches sel pl /\ In (k, v) ds)
  /\ forall pr' sel' ds' v', In (pr', sel', ds') flat -> matches sel' pl -> In (k, v') ds' -> outranks pr pr'.
Proof.
  unfold cascaded. split; intros (pr & A & M); exists pr; (split; [apply fixed_flat; exact A|]).
  - intros pr' sel' ds' v' I MA D. apply (M pr' v'), fixed_flat. eauto.
  - intros pr' v' A'. apply fixed_flat in A' as (sel & ds & I & MA & D). eapply M; eassumption.
Qed.
Lemma matches_one c pl : matches [c] pl <-> simple_matches c pl.
Proof. split; [intros H; inversion H as [|c0 l x a q M Q M']; subst; [assumption | inversion M'] | apply ma_one]. Qed.
Lemma matches_two c c' x up : matches [c; c'] (x :: up) <-> simple_matches c (x :: up) /\ exists a q, up = a ++ q /\ simple_matches c' q.
Proof.
  split.
  - intros H. inversion H as [|c0 l x0 a q M Q M']; subst. split; [exact M|]. exists a, q. split; [reflexivity | apply matches_one; exact M'].
  - intros [M (a & q & -> & M')]. apply ma_desc; [exact M | intros ->; destruct M' | apply matches_one; exact M'].
Qed.

(** The rules for one tag and one property. *)
Definition cands (t k : str) : list (priority * list simple * str) :=
  flat_map (fun f : priority * list simple * list (str * str) =>
    match snd (fst f) with
    | c :: _ => match s_tag c with
                | Some u => if seqb u t then map (fun d => (fst f, snd d)) (filter (fun d => seqb (fst d) k) (snd f)) else []
                | None => [] end
    | [] => []
    end) flat.
Lemma cands_iff e i up t k pr sel v : e_tag e = t ->
  (In (pr, sel, v) (cands t k) /\ matches sel ((e, i) :: up) <-> exists ds, In (pr, sel, ds) flat /\ matches sel ((e, i) :: up) /\ In (k, v) ds).
Proof.
  intros T. unfold cands. split.
  - intros [I M]. apply in_flat_map in I as ([[pr' sel'] ds] & IF & I). cbn [fst snd] in I. destruct sel' as [|c r]; [destruct I|]. destruct (s_tag c) as [u|]; [|destruct I].
    destruct (seqb u t); [|destruct I]. apply in_map_iff in I as ([k' v'] & E & I). cbn [fst snd] in E. injection E as <- <- <-. apply filter_In in I as [I K]. cbn [fst] in K. apply seqb_eq in K. subst k'. eauto.
  - intros (ds & IF & M & D). split; [|exact M]. apply in_flat_map. exists (pr, sel, ds). split; [exact IF|]. cbn [fst snd].
    assert (H : exists c r u, sel = c :: r /\ s_tag c = Some u).
    { unfold flat in IF. vm_compute in IF. repeat (destruct IF as [IF|IF]; [injection IF as <- <- <-; do 3 eexists; split; reflexivity|]). destruct IF. }
    destruct H as (c & r & u & -> & TC). rewrite TC. apply matches_head in M. destruct M as [M _]. rewrite TC in M. rewrite <- M, T, (proj2 (seqb_eq t t) eq_refl).
    apply in_map_iff. exists (k, v). split; [reflexivity|]. apply filter_In. split; [exact D | apply seqb_eq; reflexivity].
Qed.
Lemma cands_cascaded e i up t k v : e_tag e = t ->
  (cascaded fixed_rules ((e, i) :: up) k v <-> exists pr sel, In (pr, sel, v) (cands t k) /\ matches sel ((e, i) :: up)
     /\ forall pr' sel' v', In (pr', sel', v') (cands t k) -> matches sel' ((e, i) :: up) -> outranks pr pr').
Proof.
  intros T. rewrite flat_cascaded. split.
  - intros (pr & (sel & ds & H) & MAX). exists pr, sel. assert (X : exists ds, In (pr, sel, ds) flat /\ matches sel ((e, i) :: up) /\ In (k, v) ds) by eauto.
    apply (cands_iff e i up t k pr sel v T) in X as [X1 X2]. split; [exact X1|]. split; [exact X2|]. intros pr' sel' v' I M.
    destruct (proj1 (cands_iff e i up t k pr' sel' v' T) (conj I M)) as (ds' & I' & M' & D'). exact (MAX _ _ _ _ I' M' D').
  - intros (pr & sel & I & M & MAX). exists pr. split; [exists sel; apply (cands_iff e i up t k pr sel v T); auto|]. intros pr' sel' ds' v' I' M' D'.
    destruct (proj2 (cands_iff e i up t k pr' sel' v' T)) as [I2 M2]; [eauto|]. exact (MAX _ _ _ I2 M2).
Qed.
Definition ps (t : string) (q : option string) : simple := mkSimple (Some (utf8 t)) None (match q with Some x => Some (utf8 x) | None => None end).
(** Only one rule. *)
Lemma single_cascaded e i up t k pr v0 : e_tag e = t -> cands t k = [(pr, [mkSimple (Some t) None None], v0)] -> forall v, cascaded fixed_rules ((e, i) :: up) k v <-> v = v0.
Proof.
  intros T C v. rewrite (cands_cascaded e i up t k v T), C. split.
  - intros (pr' & sel & [[= _ _ <-]|[]] & _). reflexivity.
  - intros ->. exists pr, [mkSimple (Some t) None None]. split; [left; reflexivity|]. split; [apply matches_one; repeat split; exact T|].
    intros pr' sel' v' [[= <- _ _]|[]] _. destruct pr as [[x y] z]. cbn. lia.
Qed.
(** Two rules, the second of which always matches. *)
Lemma double_cascaded e i up t k pr1 s1 v1 pr2 v2 (B : bool) : e_tag e = t ->
  Permutation.Permutation (cands t k) [(pr1, s1, v1); (pr2, [mkSimple (Some t) None None], v2)] -> ~ outranks pr2 pr1 -> outranks pr1 pr2 ->
  (matches s1 ((e, i) :: up) <-> B = true) -> forall v, cascaded fixed_rules ((e, i) :: up) k v <-> v = if B then v1 else v2.
Proof.
  intros T PM O1 O2 MB v. rewrite (cands_cascaded e i up t k v T).
  assert (IN : forall x, In x (cands t k) <-> x = (pr1, s1, v1) \/ x = (pr2, [mkSimple (Some t) None None], v2)).
  { intros x. split; [intros I; apply (Permutation.Permutation_in _ PM) in I; destruct I as [<-|[<-|[]]]; auto|].
    intros I. apply (Permutation.Permutation_in _ (Permutation.Permutation_sym PM)). destruct I as [-> | ->]; cbn; tauto. }
  assert (M2 : matches [mkSimple (Some t) None None] ((e, i) :: up)) by (apply matches_one; repeat split; exact T).
  assert (R1 : outranks pr1 pr1) by (destruct pr1 as [[x y] z]; cbn; lia). assert (R2 : outranks pr2 pr2) by (destruct pr2 as [[x y] z]; cbn; lia).
  split.
  - intros (pr & sel & I & M & MAX). apply IN in I. destruct B.
    + destruct I as [[= -> -> ->]|[= -> -> ->]]; [reflexivity|]. exfalso. apply O1. apply (MAX pr1 s1 v1); [apply IN; auto | apply MB; reflexivity].
    + destruct I as [[= -> -> ->]|[= -> -> ->]]; [|reflexivity]. apply MB in M. discriminate.
  - intros ->. destruct B.
    + exists pr1, s1. split; [apply IN; auto|]. split; [apply MB; reflexivity|]. intros pr' sel' v' I _. apply IN in I as [[= -> _ _]|[= -> _ _]]; assumption.
    + exists pr2, [mkSimple (Some t) None None]. split; [apply IN; auto|]. split; [exact M2|]. intros pr' sel' v' I M. apply IN in I as [[= -> -> _]|[= -> _ _]]; [apply MB in M; discriminate | assumption].
Qed.
(** Paragraphs, tables and cells. *)
Lemma paragraph_top e i up v : e_tag e = utf8 "p" -> (cascaded fixed_rules ((e, i) :: up) (utf8 "margin-top") v <-> v = if (i =? 0)%nat then utf8 ".3em" else utf8 "0em").
Proof.
  intros T. apply (double_cascaded e i up (utf8 "p") _ (1, 1, 1)%nat [ps "p" (Some "first-child")] _ (0, 1, 3)%nat); [exact T | vm_compute; apply Permutation.Permutation_refl | cbn; lia | cbn; lia|].
  rewrite matches_one, Nat.eqb_eq. cbn [ps simple_matches s_tag s_class s_pseudo]. split; [intros (_ & _ & [[_ H]|[H _]]); [exact H | discriminate H] | intros H; auto].
Qed.
Lemma paragraph_bottom e i up v : e_tag e = utf8 "p" ->
  (cascaded fixed_rules ((e, i) :: up) (utf8 "margin-bottom") v <-> v = utf8 ".3em" /\ match up with (parent, _) :: _ => S i = List.length (e_kids parent) | [] => True end).
Proof.
  intros T. assert (C : cands (utf8 "p") (utf8 "margin-bottom") = [((1, 1, 2)%nat, [ps "p" (Some "last-child")], utf8 ".3em")]) by (vm_compute; reflexivity).
  rewrite (cands_cascaded e i up _ _ v T), C.
  assert (M : matches [ps "p" (Some "last-child")] ((e, i) :: up) <-> match up with (parent, _) :: _ => S i = List.length (e_kids parent) | [] => True end).
  { rewrite matches_one. cbn [ps simple_matches s_tag s_class s_pseudo]. split; [intros (_ & _ & [[H _]|[_ H]]); [discriminate H | exact H] | intros H; auto]. }
  split.
  - intros (pr & sel & [E|[]] & X & _). assert (v = utf8 ".3em" /\ sel = [ps "p" (Some "last-child")]) as [-> ->] by (split; congruence). split; [reflexivity | apply M; exact X].
  - intros [-> H]. exists (1, 1, 2)%nat, [ps "p" (Some "last-child")]. split; [left; reflexivity|]. split; [apply M; exact H|]. intros pr' sel' v' [E|[]] _. assert (pr' = (1, 1, 2)%nat) as -> by congruence. cbn. lia.
Qed.
Definition in_td (up : place) : bool := existsb (fun x => seqb (e_tag (fst x)) (utf8 "td")) up.
Lemma table_bottom e i up v : e_tag e = utf8 "table" -> (cascaded fixed_rules ((e, i) :: up) (utf8 "margin-bottom") v <-> v = if in_td up then utf8 "1em" else utf8 "3em").
Proof.
  intros T. apply (double_cascaded e i up (utf8 "table") _ (0, 2, 6)%nat [ps "table" None; ps "td" None] _ (0, 1, 5)%nat); [exact T | vm_compute; apply Permutation.perm_swap | cbn; lia | cbn; lia|].
  rewrite matches_two. unfold in_td. rewrite existsb_exists. cbn [ps simple_matches s_tag s_class s_pseudo]. split.
  - intros [_ (a & q & -> & M)]. destruct q as [|[e' i'] q]; [destruct M|]. exists (e', i'). split; [apply in_or_app; right; left; reflexivity | apply seqb_eq; exact (proj1 M)].
  - intros ([e' i'] & I & E). apply seqb_eq in E. cbn [fst] in E. split; [repeat split; exact T|]. apply in_split in I as (a & q & ->). exists a, ((e', i') :: q). split; [reflexivity | repeat split; exact E].
Qed.
Lemma table_border e i up : In (e_tag e) (map utf8 ["table"; "td"; "th"]) -> forall v,
  (cascaded fixed_rules ((e, i) :: up) (utf8 "border") v <-> v = utf8 "1px solid black") /\ (cascaded fixed_rules ((e, i) :: up) (utf8 "border-collapse") v <-> v = utf8 "collapse").
Proof.
  intros T v. cbn [map In] in T. destruct T as [T|[T|[T|[]]]]; symmetry in T; split;
    (eapply (single_cascaded e i up); [exact T | vm_compute; reflexivity]).
Qed.
