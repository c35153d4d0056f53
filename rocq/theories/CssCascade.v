(** Which rules of the style sheet apply to an element, and which one wins. *)
From Coq Require Import NArith ZArith List Bool String Lia.
From Coq Require Import ZifyBool ZifyN ZifyNat.
From Verif Require Import PyStr PyStrFacts Xml Docx Render Css SpecText SpecFmt SpecHtml SpecCss CssRead CssProofs.
From Verif Require Import RangeProofs Prop_Fmt DocxParts.
Import ListNotations.
Local Open Scope string_scope.
Local Open Scope list_scope.
Local Open Scope N_scope.

(** ** In general *)

Lemma declares_det ds k v v' : declares ds k v -> declares ds k v' -> v = v'.
Proof.
  intros (l & r & E & N) (l' & r' & E' & N'). revert l' E' . rewrite E. clear E. induction l as [|a l IH]; intros [|a' l'] E; cbn [app] in E; injection E as E1 E2.
  - congruence.
  - subst. exfalso. apply N. rewrite map_app. apply in_or_app. right. left. reflexivity.
  - subst. exfalso. apply N'. rewrite map_app. apply in_or_app. right. left. reflexivity.
  - exact (IH _ E2).
Qed.
Theorem cascaded_det sh p k v v' : cascaded sh p k v -> cascaded sh p k v' -> v = v'.
Proof.
  intros (pr & A & M) (pr' & A' & M'). assert (O := M _ _ A'). assert (O' := M' _ _ A).
  destruct A as (n & ls & ds & l & E & I & MA & D & ->), A' as (n' & ls' & ds' & l' & E' & I' & MA' & D' & ->). cbn in O, O'.
  assert (n = n') by lia. subst n'. rewrite E in E'. injection E' as <- <-. exact (declares_det _ _ _ _ D D').
Qed.
Lemma declares_in ds k v : NoDup (map fst ds) -> (declares ds k v <-> In (k, v) ds).
Proof.
  intros N. split; [intros (l & r & -> & _); apply in_or_app; right; left; reflexivity|]. intros I. apply in_split in I as (l & r & ->). exists l, r. split; [reflexivity|].
  rewrite map_app in N. cbn [map fst] in N. apply NoDup_remove_2 in N. intros X. apply N. apply in_or_app. right. exact X.
Qed.
(** The last simple selector has to match the element itself. *)
Lemma matches_head c l p : matches (c :: l) p -> simple_matches c p.
Proof. inversion 1; subst; assumption. Qed.
Lemma rev_head {A} (l : list A) a : rev (l ++ [a]) = a :: rev l.
Proof. rewrite rev_app_distr. reflexivity. Qed.
Lemma word_self n : dark n -> word_of n n.
Proof. intros [N F]. exists [], []. rewrite app_nil_r. repeat split; auto. Qed.
Lemma word_only n v : dark v -> word_of n v -> n = v.
Proof.
  intros [_ F] (a & b & -> & _ & _ & A & B). apply Forall_app in F as [FA F]. apply Forall_app in F as [_ FB].
  assert (a = []) as -> by (destruct A as [->|(a' & x & -> & X)]; [reflexivity|]; apply Forall_app in FA as [_ FA]; inversion FA; contradiction).
  assert (b = []) as -> by (destruct B as [->|(x & b' & -> & X)]; [reflexivity|]; inversion FB; contradiction).
  rewrite app_nil_r. reflexivity.
Qed.
Lemma ident_dark n : ident n -> dark n.
Proof.
  intros I. destruct (ident_chars n I) as [F N]. split; [exact N|]. eapply Forall_impl; [|exact F]. intros c. unfold name_char, css_letter, css_digit, css_space. lia.
Qed.
Lemma applies_app_l a b p k pr v : applies a p k pr v -> applies (a ++ b) p k pr v.
Proof.
  intros (n & ls & ds & l & E & H). exists n, ls, ds, l. split; [|exact H]. rewrite nth_error_app1; [exact E|]. apply nth_error_Some. congruence.
Qed.
Lemma applies_in sh p k pr v : applies sh p k pr v -> exists ls ds l, In (ls, ds) sh /\ In l ls /\ matches (rev l) p /\ declares ds k v.
Proof. intros (n & ls & ds & l & E & I & M & D & _). exists ls, ds, l. apply nth_error_In in E. auto. Qed.
(** If all that applies to the element declares one value, that is its value. *)
Lemma cascaded_max sh p k n ls ds l v : nth_error sh n = Some (ls, ds) -> In l ls -> matches (rev l) p -> declares ds k v ->
  (forall n' ls' ds' l' v', nth_error sh n' = Some (ls', ds') -> In l' ls' -> matches (rev l') p -> declares ds' k v' ->
     outranks (count_some s_class l + count_some s_pseudo l, count_some s_tag l, n)%nat (count_some s_class l' + count_some s_pseudo l', count_some s_tag l', n')%nat) ->
  cascaded sh p k v.
Proof.
  intros E I M D H. eexists. split; [exists n, ls, ds, l; split; [exact E|]; split; [exact I|]; split; [exact M|]; split; [exact D | reflexivity]|].
  intros pr' v' (n' & ls' & ds' & l' & E' & I' & M' & D' & ->). eapply H; eassumption.
Qed.

(** The lists an element stands in, itself included, innermost first: their levels. *)
Inductive list_chain : place -> list lvl -> Prop :=
| lc_nil : list_chain [] []
| lc_other e i p ls : ~ list_elem e -> list_chain p ls -> list_chain ((e, i) :: p) ls
| lc_list e i p l ls : list_elem e -> e_tag e = lvl_tag l -> e_attrs e = [(utf8 "class", lvl_class l)] -> list_chain p ls -> list_chain ((e, i) :: p) (l :: ls).

(** ** The caches *)

Definition caches_inv (c : caches) : Prop := inv (utf8 "txtfmt") css_attrs (c_txt c) /\ inv (utf8 "tcell") fill_css (c_cell c).
Lemma asked_inv PF PT c c' : asked PF PT c c' -> caches_inv c -> caches_inv c'.
Proof.
  induction 1 as [c|p c n c1 c2 _ T _ IH|f c n c1 c2 _ T _ IH]; intros [I1 I2]; [split; assumption| |]; apply IH.
  - unfold txt_class in T. destruct (request_step (utf8 "txtfmt") rp_eqb css_attrs rp_eq_css p (c_txt c) I1) as (n' & t & E & I' & _). rewrite E in T. injection T as <- <-. split; assumption.
  - unfold cell_class in T. destruct (request_step (utf8 "tcell") seqb fill_css fill_eq_css f (c_cell c) I2) as (n' & t & E & I' & _). rewrite E in T. injection T as <- <-. split; assumption.
Qed.
Lemma none_inv : caches_inv no_caches.
Proof. split; apply inv_empty. Qed.
Lemma get_keys {K} prefix (eq : K -> K -> bool) css (P : K -> Prop) k c n c' : get_clsname prefix eq css k c = (n, c') -> P k ->
  (forall q m, In (q, m) (ca_dict c) -> P q) -> forall q m, In (q, m) (ca_dict c') -> P q.
Proof.
  unfold get_clsname. destruct (css k); [intros [= <- <-]; auto|]. destruct (find _ _); intros [= <- <-] PK H q m I; [eapply H; eassumption|].
  cbn [ca_dict] in I. apply in_app_iff in I as [I|[[= <- <-]|[]]]; [eapply H; eassumption | exact PK].
Qed.
Lemma asked_keys (PF : option str -> Prop) PT c c' : asked PF PT c c' ->
  (forall p n, In (p, n) (ca_dict (c_txt c)) -> PT p) -> (forall f n, In (f, n) (ca_dict (c_cell c)) -> PF (Some f)) ->
  (forall p n, In (p, n) (ca_dict (c_txt c')) -> PT p) /\ (forall f n, In (f, n) (ca_dict (c_cell c')) -> PF (Some f)).
Proof.
  induction 1 as [c|p c n c1 c2 H T _ IH|f c n c1 c2 H T _ IH]; intros A B; [split; assumption| |]; apply IH.
  - unfold txt_class in T. destruct (get_clsname _ _ _ p (c_txt c)) as [n' t] eqn:E. injection T as <- <-. exact (get_keys _ _ _ PT _ _ _ _ E H A).
  - unfold txt_class in T. destruct (get_clsname _ _ _ p (c_txt c)) as [n' t] eqn:E. injection T as <- <-. exact B.
  - unfold cell_class in T. destruct (get_clsname _ _ _ f (c_cell c)) as [n' t] eqn:E. injection T as <- <-. exact A.
  - unfold cell_class in T. destruct (get_clsname _ _ _ f (c_cell c)) as [n' t] eqn:E. injection T as <- <-. exact (get_keys _ _ _ (fun f => PF (Some f)) _ _ _ _ E H B).
Qed.
Section Inv.
Context {K : Type}.
Variables (prefix : str) (css : K -> list (str * str)).
Lemma inv_names c n a : inv prefix css c -> In (n, a) (emit_rules css c) -> exists i, n = prefix ++ str_of_N i.
Proof.
  intros (_ & I & _) H. unfold emit_rules in H. apply in_map_iff in H as ([k m] & E & H). injection E as <- <-. apply In_nth_error in H as (i & H).
  destruct (I _ _ _ H) as [-> _]. exists (N.of_nat i). reflexivity.
Qed.
Lemma inv_nodup c : inv prefix css c -> NoDup (map fst (emit_rules css c)).
Proof.
  intros (_ & I2 & _). unfold emit_rules. rewrite map_map. apply NoDup_nth_error. intros i j Hi H. rewrite map_length in Hi.
  cbn [fst] in H. rewrite !nth_error_map in H.
  destruct (nth_error (ca_dict c) i) as [[k n]|] eqn:X; [|apply nth_error_None in X; lia].
  destruct (nth_error (ca_dict c) j) as [[k' n']|] eqn:Y; [|discriminate]. cbn in H. injection H as <-.
  destruct (I2 _ _ _ X) as [Nx _], (I2 _ _ _ Y) as [Ny _]. rewrite Nx in Ny. apply name_inj in Ny. lia.
Qed.
End Inv.
Lemma prefix_ident p i : ident p -> ident (p ++ str_of_N i).
Proof. intros I. apply ident_app; [exact I | apply N_css]. Qed.

Lemma hash_value s : css_word s -> value_text (utf8 "#" ++ s).
Proof.
  intros W. change (utf8 "#") with [35]. cbn [app].
  assert (F : Forall (fun c => value_char c) (35 :: s)).
  { constructor; [unfold value_char; cbn; tauto|]. eapply Forall_impl; [|exact W]. unfold value_char. tauto. }
  split; [exists 35, s; split; [reflexivity | unfold value_char; cbn; tauto]|]. split.
  - destruct (exists_last (l := 35 :: s)) as (r & c & E); [discriminate|]. exists r, c. split; [exact E|]. rewrite E in F. apply Forall_app in F as [_ F]. inversion F; assumption.
  - eapply Forall_impl; [|exact F]. auto.
Qed.
Lemma attrs_value p k v : (forall c, rp_color p = Some c -> css_word c) -> In (k, v) (css_attrs p) -> ident k /\ value_text v.
Proof.
  intros C. unfold css_attrs. intros I. repeat (apply in_app_iff in I as [I|I]).
  - destruct (rp_bold p) as [[]|]; try (exfalso; exact I); destruct I as [[= <- <-]|[]]; (split; [idt | val]).
  - destruct (rp_italics p) as [[]|]; try (exfalso; exact I); destruct I as [[= <- <-]|[]]; (split; [idt | val]).
  - destruct (rp_underline p), (rp_strike p); cbn [app] in I; try (exfalso; exact I); destruct I as [[= <- <-]|[]]; (split; [idt | val]).
  - destruct (rp_valign p) as [[]|]; try (exfalso; exact I); destruct I as [[= <- <-]|[]]; (split; [idt | val]).
  - destruct (rp_color p) as [c|]; try (exfalso; exact I); destruct I as [[= <- <-]|[]]. split; [idt | apply hash_value; auto].
Qed.
Lemma fill_value f k v : css_word f -> In (k, v) (fill_css f) -> ident k /\ value_text v.
Proof. intros W. unfold fill_css. destruct (smem _ _); [intros []|]. intros [[= <- <-]|[]]. split; [idt | apply hash_value; exact W]. Qed.
Lemma attrs_nodup p : NoDup (map fst (css_attrs p)).
Proof.
  unfold css_attrs.
  destruct (rp_bold p) as [[]|], (rp_italics p) as [[]|], (rp_underline p), (rp_strike p), (rp_valign p) as [[]|], (rp_color p); cbn [app map fst];
    repeat (constructor; [intros H; vm_compute in H; repeat (destruct H as [H|H]; [discriminate|]); exact H|]); constructor.
Qed.
Lemma fill_nodup f : NoDup (map fst (fill_css f)).
Proof. unfold fill_css. destruct (smem _ _); repeat constructor. intros []. Qed.

Definition colour_ok (p : rprops) : Prop := forall c, rp_color p = Some c -> css_word c.
Definition fill_ok (f : option str) : Prop := forall c, f = Some c -> css_word c.
Lemma rules_ok c : caches_inv c -> (forall p n, In (p, n) (ca_dict (c_txt c)) -> colour_ok p) -> (forall f n, In (f, n) (ca_dict (c_cell c)) -> fill_ok (Some f)) ->
  Forall rule_ok (emit_rules css_attrs (c_txt c)) /\ Forall rule_ok (emit_rules fill_css (c_cell c)).
Proof.
  intros [I1 I2] K1 K2. split; apply Forall_forall; intros [n a] H.
  - split.
    + destruct (inv_names _ _ _ _ _ I1 H) as (i & E). cbn [fst]. rewrite E. apply prefix_ident. idt.
    + unfold emit_rules in H. apply in_map_iff in H as ([k m] & E & H). injection E as <- <-. cbn [snd fst]. apply Forall_forall. intros [x y] X. exact (attrs_value _ _ _ (K1 _ _ H) X).
  - split.
    + destruct (inv_names _ _ _ _ _ I2 H) as (i & E). cbn [fst]. rewrite E. apply prefix_ident. idt.
    + unfold emit_rules in H. apply in_map_iff in H as ([k m] & E & H). injection E as <- <-. cbn [snd fst]. apply Forall_forall. intros [x y] X. exact (fill_value _ _ _ (K2 _ _ H _ eq_refl) X).
Qed.

(** ** Elements with a class of the text or cell formats *)

Section Classes.
Variables (num : option numbering) (c : caches).
Hypothesis CI : caches_inv c.
Let sh := sheet_rules num c.
Let rules := emit_rules css_attrs (c_txt c) ++ emit_rules fill_css (c_cell c).

Lemma rules_names n a : In (n, a) rules -> exists i, n = utf8 "txtfmt" ++ str_of_N i \/ n = utf8 "tcell" ++ str_of_N i.
Proof.
  intros H. apply in_app_iff in H as [H|H]; [destruct (inv_names _ _ _ _ _ (proj1 CI) H) as (i & E) | destruct (inv_names _ _ _ _ _ (proj2 CI) H) as (i & E)]; eauto.
Qed.
Lemma rules_nodup : NoDup (map fst rules).
Proof.
  unfold rules. rewrite map_app.
  assert (G : forall l r : list str, NoDup l -> NoDup r -> (forall x, In x l -> ~ In x r) -> NoDup (l ++ r)).
  { induction l as [|a l IH]; intros r L R D; [exact R|]. inversion L; subst. cbn [app]. constructor.
    - intros H. apply in_app_iff in H as [H|H]; [contradiction | exact (D a (or_introl eq_refl) H)].
    - apply IH; auto. intros x X. apply D. right. exact X. }
  apply G; [exact (inv_nodup _ _ _ (proj1 CI)) | exact (inv_nodup _ _ _ (proj2 CI))|].
  intros x X Y. apply in_map_iff in X as ([n a] & <- & X), Y as ([m b] & E & Y). cbn [fst] in *. subst m.
  destruct (inv_names _ _ _ _ _ (proj1 CI) X) as (i & E1), (inv_names _ _ _ _ _ (proj2 CI) Y) as (j & E2). rewrite E1 in E2. discriminate E2.
Qed.
Lemma rules_ident n a : In (n, a) rules -> ident n.
Proof. intros H. destruct (rules_names _ _ H) as (i & [-> | ->]); apply prefix_ident; idt. Qed.
Lemma rule_unique n a a' : In (n, a) rules -> In (n, a') rules -> a = a'.
Proof.
  intros H H'. pose proof rules_nodup as N. revert N H H'. generalize rules. intros l. induction l as [|[m b] l IH]; cbn [map fst]; intros N; [intros []|]. inversion N; subst.
  intros [E|H] [E'|H'].
  - congruence.
  - injection E as -> ->. exfalso. apply H1. apply in_map_iff. exists (n, a'). auto.
  - injection E' as -> ->. exfalso. apply H1. apply in_map_iff. exists (n, a). auto.
  - auto.
Qed.
(** The rules of the lists and of the classes, if neither lists nor fixed tags are concerned. *)
Definition tag_in (t : str) : Prop := In t (map utf8 ["body"; "p"; "table"; "td"; "th"]).
Definition is_list_tag (t : str) : Prop := t = utf8 "ol" \/ t = utf8 "ul".
Lemma fixed_tag p k v ls ds l : In (ls, ds) fixed_rules -> In l ls -> matches (rev l) p -> declares ds k v -> exists e i up, p = (e, i) :: up /\ tag_in (e_tag e).
Proof.
  intros I L M _. unfold fixed_rules in I. unfold tag_in.
  repeat (destruct I as [E|I]; [injection E as <- <-; repeat (destruct L as [<-|L]; [cbn [rev app] in M; apply matches_head in M; destruct p as [|[e i] up]; [destruct M|]; destruct M as [M _]; exists e, i, up; split; [reflexivity|]; cbn in M; rewrite M; cbn; tauto|]); destruct L|]).
  destruct I.
Qed.
Lemma repeat_last {A} (a b : A) n : exists l, a :: repeat b n = l ++ [match n with O => a | _ => b end].
Proof. destruct n; [exists []; reflexivity|]. exists (a :: repeat b n). cbn [app]. f_equal. exact (repeat_cons n b). Qed.
Lemma list_tag p lv l : In l (fst (list_rule lv)) -> matches (rev l) p -> exists e i up, p = (e, i) :: up /\ e_tag e = lvl_tag lv.
Proof.
  intros [<-|[]] M. destruct (repeat_last (mkSimple (Some (lvl_tag lv)) (Some (lvl_class lv)) None) (mkSimple (Some (lvl_tag lv)) None None) (Z.to_nat (v_ilvl lv))) as (l & E).
  rewrite E, rev_head in M. apply matches_head in M. destruct p as [|[e i] up]; [destruct M|]. exists e, i, up. split; [reflexivity|]. destruct M as [M _].
  destruct (Z.to_nat (v_ilvl lv)); exact M.
Qed.
Lemma lvl_tag_list l : is_list_tag (lvl_tag l).
Proof. unfold lvl_tag, is_list_tag. destruct (is_ordered l); auto. Qed.
Lemma class_match r p l : In l (fst (class_rule r)) -> matches (rev l) p -> exists e i up v, p = (e, i) :: up /\ In (utf8 "class", v) (e_attrs e) /\ word_of (fst r) v.
Proof.
  intros [<-|[]] M. apply matches_head in M. destruct p as [|[e i] up]; [destruct M|]. destruct M as (_ & (v & I & W) & _). eauto 8.
Qed.
Lemma sheet_cases ls ds : In (ls, ds) sh -> In (ls, ds) fixed_rules \/ (exists lv, In lv (levels num) /\ (ls, ds) = list_rule lv) \/ (exists r, In r rules /\ (ls, ds) = class_rule r).
Proof.
  unfold sh, sheet_rules. intros H. apply in_app_iff in H as [H|H]; [auto|]. apply in_app_iff in H as [H|H]; apply in_map_iff in H as (x & E & H); [right; left | right; right]; eauto.
Qed.
(** An element whose only attribute called class is the name of a rule: the declarations of that
    rule, if no rule for tags declares the property too. *)
Definition class_of (e : elem) (n : str) : Prop := forall v, In (utf8 "class", v) (e_attrs e) <-> v = n.
Lemma class_rules_only e i up n k v ls ds l : class_of e n -> dark n -> ~ tag_in (e_tag e) \/ ~ In k (flat_map (fun r => map fst (snd r)) fixed_rules) -> ~ is_list_tag (e_tag e) ->
  In (ls, ds) sh -> In l ls -> matches (rev l) ((e, i) :: up) -> declares ds k v -> exists a, In (n, a) rules /\ (ls, ds) = class_rule (n, a).
Proof.
  intros C DK NT NL H L M D. destruct (sheet_cases _ _ H) as [F|[(lv & I & E)|([m a] & I & E)]].
  - exfalso. destruct NT as [NT|NT].
    + destruct (fixed_tag _ _ _ _ _ _ F L M D) as (e' & i' & up' & E & T). injection E as <- <- <-. exact (NT T).
    + apply NT. apply in_flat_map. exists (ls, ds). split; [exact F|]. cbn [snd]. destruct D as (x & y & -> & _). rewrite map_app. apply in_or_app. right. left. reflexivity.
  - exfalso. injection E as -> ->. destruct (list_tag _ lv l L M) as (e' & i' & up' & E & T). injection E as <- <- <-. apply NL. rewrite T. apply lvl_tag_list.
  - injection E as -> ->. destruct (class_match (m, a) _ l L M) as (e' & i' & up' & w & E & A & W). injection E as <- <- <-. apply C in A. subst w.
    apply word_only in W; [|exact DK]. cbn [fst] in W. subst m. eauto.
Qed.
Lemma class_wins e i up n a k v : In (n, a) rules -> NoDup (map fst a) -> class_of e n ->
  ~ tag_in (e_tag e) \/ ~ In k (flat_map (fun r => map fst (snd r)) fixed_rules) -> ~ is_list_tag (e_tag e) ->
  (cascaded sh ((e, i) :: up) k v <-> In (k, v) a).
Proof.
  intros I N C NT NL. assert (DK := ident_dark n (rules_ident _ _ I)). split.
  - intros (pr & A & _). destruct (applies_in _ _ _ _ _ A) as (ls & ds & l & S & L & M & D).
    destruct (class_rules_only e i up n k v ls ds l C DK NT NL S L M D) as (a' & I' & E). injection E as -> ->. rewrite (rule_unique _ _ _ I' I) in D.
    apply declares_in; assumption.
  - intros H. assert (S : In (class_rule (n, a)) sh) by (unfold sh, sheet_rules; apply in_or_app; right; apply in_or_app; right; apply in_map; exact I).
    apply In_nth_error in S as (x & S).
    assert (MM : matches [mkSimple None (Some n) None] ((e, i) :: up)).
    { constructor. split; [exact Logic.I|]. split; [|exact Logic.I]. exists n. split; [apply C; reflexivity | apply word_self; exact DK]. }
    apply (cascaded_max _ _ _ x [[mkSimple None (Some n) None]] a [mkSimple None (Some n) None]); [exact S | left; reflexivity | exact MM | apply declares_in; assumption|].
    intros x' ls' ds' l' v' S' L' M' D'. destruct (class_rules_only e i up n k v' ls' ds' l' C DK NT NL (nth_error_In _ _ S') L' M' D') as (a' & I' & E). injection E as -> ->.
    destruct L' as [<-|[]]. assert (x = x') as ->; [|cbn; lia].
    rewrite (rule_unique _ _ _ I' I) in S'. clear - S S' CI I. unfold sh, sheet_rules in S, S'.
    (* the position of the rule *)
    assert (P : forall y, nth_error (fixed_rules ++ map list_rule (levels num) ++ map class_rule (emit_rules css_attrs (c_txt c) ++ emit_rules fill_css (c_cell c))) y = Some (class_rule (n, a)) ->
       (List.length fixed_rules + List.length (levels num) <= y)%nat /\ nth_error (map class_rule rules) (y - List.length fixed_rules - List.length (levels num)) = Some (class_rule (n, a))).
    { intros y Y. destruct (Nat.lt_ge_cases y (List.length fixed_rules)) as [L1|L1].
      - rewrite nth_error_app1 in Y by exact L1. apply nth_error_In in Y. exfalso. unfold fixed_rules in Y. repeat (destruct Y as [Y|Y]; [discriminate Y|]). exact Y.
      - rewrite nth_error_app2 in Y by exact L1. destruct (Nat.lt_ge_cases (y - List.length fixed_rules) (List.length (map list_rule (levels num)))) as [L2|L2].
        + rewrite nth_error_app1 in Y by exact L2. apply nth_error_In in Y. apply in_map_iff in Y as (lv & Y & _). exfalso. unfold list_rule, class_rule in Y. injection Y as Y _. discriminate Y.
        + rewrite nth_error_app2 in Y by exact L2. rewrite map_length in L2, Y. split; [lia | exact Y]. }
    destruct (P _ S) as [B1 Q1], (P _ S') as [B2 Q2].
    assert (NoDup (map class_rule rules)).
    { pose proof rules_nodup as ND. clear - ND. induction rules as [|[m b] l IH]; [constructor|]. cbn [map] in *. inversion ND; subst. constructor; [|auto].
      intros X. apply in_map_iff in X as ([m' b'] & E & X). injection E as -> ->. apply H1. apply in_map_iff. exists (m, b). auto. }
    assert (y := proj1 (NoDup_nth_error _) H). specialize (y (x - List.length fixed_rules - List.length (levels num))%nat (x' - List.length fixed_rules - List.length (levels num))%nat).
    assert (x - List.length fixed_rules - List.length (levels num) = x' - List.length fixed_rules - List.length (levels num))%nat; [|lia].
    apply y; [apply nth_error_Some; congruence | congruence].
Qed.
(** Without a class, only the rules for tags. *)
Lemma classless_rules e i up k v : (forall w, ~ In (utf8 "class", w) (e_attrs e)) -> ~ tag_in (e_tag e) \/ ~ In k (flat_map (fun r => map fst (snd r)) fixed_rules) -> ~ is_list_tag (e_tag e) ->
  ~ cascaded sh ((e, i) :: up) k v.
Proof.
  intros C NT NL (pr & A & _). destruct (applies_in _ _ _ _ _ A) as (ls & ds & l & H & L & M & D). destruct (sheet_cases _ _ H) as [F|[(lv & I & E)|([m a] & I & E)]].
  - destruct NT as [NT|NT].
    + destruct (fixed_tag _ _ _ _ _ _ F L M D) as (e' & i' & up' & E & T). injection E as <- <- <-. exact (NT T).
    + apply NT. apply in_flat_map. exists (ls, ds). split; [exact F|]. cbn [snd]. destruct D as (x & y & -> & _). rewrite map_app. apply in_or_app. right. left. reflexivity.
  - injection E as -> ->. destruct (list_tag _ lv l L M) as (e' & i' & up' & E & T). injection E as <- <- <-. apply NL. rewrite T. apply lvl_tag_list.
  - injection E as -> ->. destruct (class_match (m, a) _ l L M) as (e' & i' & up' & w & E & B & W). injection E as <- <- <-. exact (C _ B).
Qed.
End Classes.
