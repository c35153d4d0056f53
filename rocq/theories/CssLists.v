(** The style of the items of a list: proofs. *)
From Coq Require Import NArith ZArith List Bool String Lia.
From Coq Require Import ZifyBool ZifyN ZifyNat.
From Verif Require Import PyStr PyStrFacts Xml Docx Render Css SpecText SpecFmt SpecHtml SpecDocx SpecCss CssRead CssProofs.
From Verif Require Import RangeProofs Prop_Docx DocxParts CssCascade TablesOnce.
Import ListNotations.
Local Open Scope string_scope.
Local Open Scope list_scope.
Local Open Scope N_scope.

(** ** Colours *)

Lemma path_in ts : forall r e x, In e (nodes r) -> In x (w_path ts e) -> In x (nodes r).
Proof.
  induction ts as [|t ts IH]; intros r e x I H; cbn [w_path] in H; [destruct H as [<-|[]]; exact I|].
  apply in_flat_map in H as (k & K & H). apply (IH r k x); [|exact H]. unfold w_children in K. apply filter_In in K as [K _]. exact (kid_node _ _ _ I K).
Qed.
Lemma path_tag ts t : forall e x, In x (w_path (ts ++ [t]) e) -> w_tag x = utf8 t.
Proof.
  induction ts as [|u ts IH]; intros e x H; cbn [w_path app] in H; apply in_flat_map in H as (k & K & H).
  - cbn [w_path] in H. destruct H as [<-|[]]. unfold w_children in K. apply filter_In in K as [_ K]. apply seqb_eq. exact K.
  - exact (IH _ _ H).
Qed.
Lemma first_in {A} (l : list A) a : first l = Some a -> In a l.
Proof. destruct l; cbn; [discriminate | intros [= ->]; left; reflexivity]. Qed.
Lemma attr_in ts t a e v r : In e (nodes r) -> attr_first (ts ++ [t]) a e = Some v -> exists x, In x (nodes r) /\ w_tag x = utf8 t /\ w_attr a x = Some v.
Proof.
  intros I H. apply first_in, in_flat_map in H as (x & X & H). exists x. split; [exact (path_in _ _ _ _ I X)|]. split; [exact (path_tag _ _ _ _ X)|].
  destruct (w_attr a x) as [w|]; [destruct H as [->|[]]; reflexivity | destruct H].
Qed.
Lemma elem_in ts e x r : In e (nodes r) -> elem_first ts e = Some x -> In x (nodes r).
Proof. intros I H. exact (path_in _ _ _ _ I (first_in _ _ H)). Qed.

Section Colours.
Variable d : docx.
Hypothesis PC : plain_colours d.
Lemma rpr_colour r e p : r = dx_body d \/ r = dx_styles d -> In e (nodes r) -> from_rpr e = DOk p -> colour_ok p.
Proof.
  intros R I H c C. unfold from_rpr in H. destruct (u_val e) as [u| |]; cbn [dbind] in H; try discriminate. destruct (valign_of _) as [va| |]; cbn [dbind] in H; try discriminate.
  injection H as <-. cbn [rp_color] in C. destruct (attr_first ["w:color"] "w:val" e) as [v|] eqn:A; [|discriminate]. destruct (Nat.eqb_spec (List.length v) 6) as [L|]; [|discriminate]. injection C as <-.
  destruct (attr_in [] _ _ _ _ r I A) as (x & X & T & W). apply (proj1 PC x); auto. destruct R as [<-|<-]; [left | right]; unfold has_node; destruct X as [<-|X]; auto.
Qed.
Lemma merge_colour p q : colour_ok p -> colour_ok q -> colour_ok (rp_merge p q).
Proof. intros P Q c. cbn [rp_merge rp_color]. destruct (rp_color q) eqn:E; cbn [or_else]; [intros [= <-]; exact (Q _ E) | exact (P c)]. Qed.
Lemma chain_colour ty fuel : forall id p, style_chain fuel ty (dx_styles d) id = DOk (Some p) -> colour_ok p.
Proof.
  induction fuel as [|f IH]; intros id p H; cbn [style_chain] in H; [discriminate|]. destruct (find _ _) as [s|] eqn:F; [|discriminate].
  apply find_some in F as [F _]. unfold styles_of in F. apply filter_In in F as [F _]. unfold w_children in F. apply filter_In in F as [F _].
  assert (S : In s (nodes (dx_styles d))) by (apply (kid_node _ (dx_styles d)); [left; reflexivity | exact F]).
  assert (E : forall q, from_rpr_elem (elem_first ["w:rPr"] s) = DOk (Some q) -> colour_ok q).
  { intros q. unfold from_rpr_elem. destruct (elem_first _ s) as [x|] eqn:X; [|discriminate]. destruct (from_rpr x) as [q'| |] eqn:Q; cbn [dbind]; try discriminate. intros [= <-].
    exact (rpr_colour _ _ _ (or_intror eq_refl) (elem_in _ _ _ _ S X) Q). }
  destruct (from_rpr_elem _) as [rpr| |] eqn:R; cbn [dbind] in H; try discriminate.
  destruct (attr_first ["w:basedOn"] _ s) as [b|]; [|injection H as ->; exact (E p eq_refl)].
  destruct (style_chain f ty _ b) as [[q|]| |] eqn:C; cbn [dbind] in H; try discriminate.
  - injection H as <-. unfold rp_merge_opt. destruct rpr as [o|]; [apply merge_colour; [exact (IH _ _ C) | exact (E o eq_refl)] | exact (IH _ _ C)].
  - injection H as ->. exact (E p eq_refl).
Qed.
Lemma run_colour r l sp p : In r (nodes (dx_body d)) -> run_spans d r = DOk l -> In sp l -> sp_style sp = Some p -> colour_ok p.
Proof.
  intros I. unfold run_spans. destruct (elem_first ["w:t"] r) as [t|]; [|intros [= <-] []]. destruct (w_text t) as [x|]; [|intros [= <-] []].
  unfold extract_r_rpr. destruct (elem_first ["w:rPr"] r) as [e|] eqn:E; cbn [dbind]; [|intros [= <-] [<-|[]]; discriminate].
  destruct (from_rpr e) as [q| |] eqn:Q; cbn [dbind]; try discriminate. assert (CQ := rpr_colour _ _ _ (or_introl eq_refl) (elem_in _ _ _ _ I E) Q).
  destruct (attr_first ["w:rStyle"] _ e) as [id|]; cbn [dbind].
  - destruct (get_style _ _ id) as [st| |] eqn:G; cbn [dbind]; try discriminate. intros [= <-] [<-|[]] [= <-]. destruct st as [s|]; [|exact CQ]. apply merge_colour; [|exact CQ].
    unfold get_style in G. destruct (alias_dct _ _) as [dc| |]; cbn [dbind] in G; try discriminate. destruct (d_get id dc) as [nm|]; [|discriminate]. exact (chain_colour _ _ _ _ G).
  - intros [= <-] [<-|[]] [= <-]. exact CQ.
Qed.
Lemma cell_colour tc : In tc (nodes (dx_body d)) -> fill_ok (cell_fill tc).
Proof.
  intros I c. unfold cell_fill. destruct (attr_first ["w:tcPr"; "w:shd"] "w:fill" tc) as [f|] eqn:A; [|discriminate].
  destruct (Nat.eqb_spec (List.length f) 6) as [L|]; cbn [andb]; [|discriminate]. destruct (negb _); [|discriminate]. intros [= <-].
  destruct (attr_in ["w:tcPr"] "w:shd" _ _ _ _ I A) as (x & X & T & W). apply (proj2 PC x); auto. unfold has_node. destruct X as [<-|X]; auto.
Qed.
End Colours.

(** ** The levels of a list *)

Definition lists_of (num : option numbering) (l : lvl) (its : list litem) : Prop :=
  exists n a lv, num = Some n /\ z_get a (n_abs n) = Some lv /\ In l lv /\ forall l', nested its l' -> In l' lv.
Lemma index_in {A} (l : list A) i a : py_index l i = DOk a -> In a l.
Proof.
  unfold py_index. destruct (_ <? 0)%Z; [discriminate|]. destruct (nth_error l _) eqn:E; [|discriminate]. intros [= <-]. exact (nth_error_In _ _ E).
Qed.
Lemma num_style_in n z a lv : num_style n z = DOk (a, lv) -> z_get a (n_abs n) = Some lv.
Proof.
  unfold num_style. destruct (z =? 0)%Z; [discriminate|]. destruct (z_get z _) as [b|]; [|discriminate]. destruct (z_get b (n_abs n)) eqn:E; [|discriminate]. intros [= <- <-]. exact E.
Qed.
Lemma list_head_in d p l a i : list_head d p = DOk (l, a, i) -> exists n lv, dx_num d = Some n /\ z_get a (n_abs n) = Some lv /\ In l lv.
Proof.
  unfold list_head, p_style. destruct (negb _); [discriminate|]. destruct (p_num_id p) as [z| |]; cbn [dbind]; try discriminate.
  destruct (dx_num d) as [n|]; cbn [dbind]; [|discriminate]. destruct (num_style n z) as [[b lv]| |] eqn:N; cbn [dbind]; try discriminate.
  destruct (p_ilvl p) as [j| |]; cbn [dbind]; try discriminate. destruct (get_ilvl lv j) as [l'| |] eqn:G; cbn [dbind]; try discriminate. intros [= <- <- <-].
  exists n, lv. split; [reflexivity|]. split; [exact (num_style_in _ _ _ _ N) | exact (index_in _ _ _ G)].
Qed.
Lemma nested_cons i its l : nested (i :: its) l -> (exists sub, i = LSub l sub) \/ (exists l1 sub, i = LSub l1 sub /\ nested sub l) \/ nested its l.
Proof.
  intros H. inversion H as [l0 sub its0 I|l1 sub its0 l0 I N]; subst; destruct I as [->|I]; [left; eauto | right; right; eapply ns_here; exact I | right; left; eauto | right; right; eapply ns_below; eassumption].
Qed.
Lemma elems_in d n a lv : dx_num d = Some n -> z_get a (n_abs n) = Some lv -> forall fuel st i its st',
  list_elems d fuel st a i = DOk (its, st') -> forall l, nested its l -> In l lv.
Proof.
  intros D Z. induction fuel as [|f IH]; intros st i its st' H l NS; cbn [list_elems] in H; [discriminate|].
  assert (NO : ~ nested [] l) by (intros X; inversion X as [? ? ? I|? ? ? ? I]; destruct I).
  destruct st as [|p rest]; [injection H as <- <-; destruct (NO NS)|]. destruct (negb (is_tag _ p)); [injection H as <- <-; destruct (NO NS)|].
  destruct (is_list_p d p) as [lp| |]; cbn [dbind] in H; try discriminate. destruct (negb lp); [injection H as <- <-; destruct (NO NS)|].
  destruct (p_num_id p) as [z| |] eqn:PN; cbn [dbind] in H; try discriminate. destruct (p_style d z) as [[b lv']| |] eqn:PS; cbn [dbind] in H; try discriminate.
  destruct (Z.eqb_spec b a) as [->|]; cbn [negb] in H; [|injection H as <- <-; destruct (NO NS)].
  destruct (p_ilvl p) as [j| |]; cbn [dbind] in H; try discriminate. destruct (i <? j)%Z.
  - destruct (list_head d p) as [[[l1 a1] i1]| |] eqn:LH; cbn [dbind] in H; try discriminate.
    assert (a1 = a) as ->.
    { unfold list_head in LH. destruct (negb _); [discriminate|]. rewrite PN in LH. cbn [dbind] in LH. rewrite PS in LH. cbn [dbind] in LH.
      destruct (p_ilvl p) as [?| |]; cbn [dbind] in LH; try discriminate. destruct (get_ilvl _ _) as [?| |]; cbn [dbind] in LH; try discriminate. injection LH as <- <- <-. reflexivity. }
    destruct (list_head_in _ _ _ _ _ LH) as (n' & lv1 & D' & Z' & I1). rewrite D in D'. injection D' as <-. rewrite Z in Z'. injection Z' as <-.
    destruct (list_elems d f (p :: rest) a i1) as [[sub st1]| |] eqn:E1; cbn [dbind] in H; try discriminate.
    destruct (list_elems d f st1 a i) as [[more st2]| |] eqn:E2; cbn [dbind] in H; try discriminate. injection H as <- <-.
    destruct (nested_cons _ _ _ NS) as [(s & E)|[(l2 & s & E & N2)|N2]]; [injection E as <- <-; exact I1 | injection E as <- <-; exact (IH _ _ _ _ E1 _ N2) | exact (IH _ _ _ _ E2 _ N2)].
  - destruct (j <? i)%Z; [injection H as <- <-; destruct (NO NS)|].
    destruct (parse_spans d p) as [sps| |]; cbn [dbind] in H; try discriminate.
    destruct (list_elems d f rest a i) as [[more st2]| |] eqn:E2; cbn [dbind] in H; try discriminate. injection H as <- <-.
    destruct (nested_cons _ _ _ NS) as [(s & E)|[(l2 & s & E & N2)|N2]]; try discriminate E. exact (IH _ _ _ _ E2 _ N2).
Qed.
Lemma parse_list_levels d st l its st' : parse_list d st = DOk (HList l its, st') -> lists_of (dx_num d) l its.
Proof.
  unfold parse_list. destruct st as [|p st]; [discriminate|]. destruct (list_head d p) as [[[l1 a] i]| |] eqn:LH; cbn [dbind]; try discriminate.
  destruct (list_elems d _ _ a i) as [[its1 st1]| |] eqn:LE; cbn [dbind]; try discriminate. intros [= <- <- <-].
  destruct (list_head_in _ _ _ _ _ LH) as (n & lv & D & Z & I). exists n, a, lv. split; [exact D|]. split; [exact Z|]. split; [exact I|]. exact (elems_in d n a lv D Z _ _ _ _ _ LE).
Qed.

(** The levels of a numbering have its number, and every number once. *)
Definition keyed (l : list (Z * list lvl)) : Prop := NoDup (map fst l) /\ forall a lv v, In (a, lv) l -> In v lv -> v_abs v = a.
Lemma z_set_keys {V} k (v : V) : forall d, NoDup (map fst d) -> NoDup (map fst (z_set k v d)) /\ (forall j, In j (map fst (z_set k v d)) -> j = k \/ In j (map fst d)).
Proof.
  induction d as [|[j w] d IH]; intros N; cbn [z_set map fst]; [split; [repeat constructor; auto | intros j [<-|[]]; auto]|].
  inversion N; subst. destruct (Z.eqb_spec j k) as [->|NE]; cbn [map fst].
  - split; [exact N | intros i [<-|I]; [left; reflexivity | right; right; exact I]].
  - destruct (IH H2) as [A B]. split; [|intros i [<-|I]; [right; left; reflexivity | destruct (B i I); [left; assumption | right; right; assumption]]]. constructor; [|exact A]. intros X. destruct (B _ X); [congruence | contradiction].
Qed.
Lemma z_set_in {V} k (v : V) d a w : In (a, w) (z_set k v d) -> (a = k /\ w = v) \/ In (a, w) d.
Proof.
  induction d as [|[j u] d IH]; cbn [z_set]; [intros [[= <- <-]|[]]; auto|]. destruct (j =? k)%Z; intros [[= <- <-]|I]; auto.
  - right. right. exact I.
  - right. left. reflexivity.
  - destruct (IH I); auto. right. right. assumption.
Qed.
Lemma dmap_in {A B} (f : A -> dres B) l bs b : dmap f l = DOk bs -> In b bs -> exists a, In a l /\ f a = DOk b.
Proof.
  revert bs. induction l as [|a l IH]; intros bs; cbn [dmap]; [intros [= <-] []|]. destruct (f a) as [c| |] eqn:E; cbn [dbind]; try discriminate.
  destruct (dmap f l) as [cs| |]; cbn [dbind]; try discriminate. intros [= <-] [<-|I]; [exists a; split; [left; reflexivity | exact E]|].
  destruct (IH _ eq_refl I) as (x & X & F). exists x. split; [right; exact X | exact F].
Qed.
Lemma abs_keyed es : forall d d', keyed d -> parse_abs es d = DOk d' -> keyed d'.
Proof.
  induction es as [|e es IH]; intros d d' [K1 K2] H; cbn [parse_abs] in H; [injection H as <-; split; assumption|].
  destruct (attr_first_req [] _ e) as [s| |]; cbn [dbind] in H; try discriminate. destruct (d_int s) as [z| |]; cbn [dbind] in H; try discriminate.
  destruct (dmap (parse_lvl z) _) as [ls| |] eqn:D; cbn [dbind] in H; try discriminate. refine (IH _ _ _ H). split; [apply z_set_keys; exact K1|].
  intros a lv v I J. destruct (z_set_in _ _ _ _ _ I) as [[-> ->]|I']; [|exact (K2 _ _ _ I' J)].
  destruct (dmap_in _ _ _ _ D J) as (x & _ & P). unfold parse_lvl in P.
  destruct (attr_first_req [] _ x) as [s1| |]; cbn [dbind] in P; try discriminate. destruct (d_int s1) as [z1| |]; cbn [dbind] in P; try discriminate.
  destruct (attr_first_req _ _ x) as [s2| |]; cbn [dbind] in P; try discriminate. destruct (attr_first_req _ _ x) as [s3| |]; cbn [dbind] in P; try discriminate. injection P as <-. reflexivity.
Qed.
Lemma numbering_keyed e n : parse_numbering e = DOk n -> keyed (n_abs n).
Proof.
  unfold parse_numbering. destruct (parse_abs _ []) as [a| |] eqn:A; cbn [dbind]; try discriminate. destruct (parse_nums _ []) as [b| |]; cbn [dbind]; try discriminate.
  intros [= <-]. cbn [n_abs]. refine (abs_keyed _ _ _ _ A). split; [constructor | intros a0 lv v []].
Qed.

(** ** Which rules match a list *)

Definition T (t : str) : simple := mkSimple (Some t) None None.
Definition TC' (t c : str) : simple := mkSimple (Some t) (Some c) None.
Lemma chain_suffix a : forall q ls, list_chain (a ++ q) ls -> exists la lq, ls = la ++ lq /\ list_chain q lq.
Proof.
  induction a as [|x a IH]; intros q ls H; [exists [], ls; auto|]. cbn [app] in H. inversion H as [|e i p ls' N H'|e i p l ls' E T1 A H']; subst.
  - exact (IH _ _ H').
  - destruct (IH _ _ H') as (la & lq & -> & Q). exists (l :: la), lq. auto.
Qed.
Lemma lists_with_app t a b : lists_with t (a ++ b) = (lists_with t a + lists_with t b)%nat.
Proof. induction a as [|l a IH]; cbn [lists_with app]; [reflexivity|]. destruct (seqb_spec (lvl_tag l) t); lia. Qed.
Lemma simple_head t k p ls : simple_matches (mkSimple (Some t) k None) p -> is_list_tag t -> list_chain p ls ->
  exists e i up l ls', p = (e, i) :: up /\ ls = l :: ls' /\ e_tag e = t /\ lvl_tag l = t /\ list_chain up ls' /\ (forall c, k = Some c -> c = lvl_class l).
Proof.
  intros M L C. destruct p as [|[e i] up]; [destruct M|]. destruct M as (M1 & M2 & _). cbn [s_tag s_class] in *.
  inversion C as [|e' i' p ls' N C'|e' i' p l ls' LE T1 A C']; subst; [destruct N; exact L|].
  exists e, i, up, l, ls'. repeat (split; [auto|]). intros c ->. destruct M2 as (v & I & W). rewrite A in I. destruct I as [[= <-]|[]].
  apply word_only in W; [exact W | apply ident_dark, lvl_class_ident].
Qed.
Lemma match_deep t c m : is_list_tag t -> forall p ls, matches (repeat (T t) m ++ [TC' t c]) p -> list_chain p ls ->
  (m < lists_with t ls)%nat /\ exists l, In l ls /\ lvl_tag l = t /\ lvl_class l = c.
Proof.
  intros L. induction m as [|m IH]; intros p ls M C.
  - cbn [repeat app] in M. apply matches_head in M. destruct (simple_head _ _ _ _ M L C) as (e & i & up & l & ls' & -> & -> & _ & TL & _ & K).
    cbn [lists_with]. destruct (seqb_spec (lvl_tag l) t); [|congruence]. split; [lia|]. exists l. split; [left; reflexivity|]. split; [exact TL | symmetry; apply K; reflexivity].
  - cbn [repeat app] in M. inversion M as [c' p' SM E|c' l' x a q SM Q M' E1 E2].
    + exfalso. destruct (repeat (T t) m); discriminate.
    + subst. destruct (simple_head _ _ _ _ SM L C) as (e & i & up & l & ls' & E & -> & _ & TL & C' & _). injection E as -> <-.
      destruct (chain_suffix _ _ _ C') as (la & lq & -> & CQ). destruct (IH _ _ M' CQ) as [LT (l2 & I2 & R)].
      cbn [lists_with]. destruct (seqb_spec (lvl_tag l) t); [|congruence]. rewrite lists_with_app. split; [lia|]. exists l2. split; [right; apply in_or_app; right; exact I2 | exact R].
Qed.
Lemma next_list t : forall up ls, list_chain up ls -> (0 < lists_with t ls)%nat ->
  exists a e i q l la lq, up = a ++ (e, i) :: q /\ ls = la ++ l :: lq /\ lists_with t la = O /\ lvl_tag l = t /\ e_tag e = t /\ e_attrs e = [(utf8 "class", lvl_class l)] /\ list_chain q lq.
Proof.
  induction 1 as [|e i p ls N C IH|e i p l ls LE T1 A C IH]; intros P; [cbn in P; lia| |].
  - destruct (IH P) as (a & e' & i' & q & l & la & lq & -> & -> & R). exists ((e, i) :: a), e', i', q, l, la, lq. auto.
  - cbn [lists_with] in P. destruct (seqb_spec (lvl_tag l) t) as [E|NE].
    + exists [], e, i, p, l, [], ls. repeat split; auto. congruence.
    + destruct (IH P) as (a & e' & i' & q & l' & la & lq & -> & -> & Z & R). exists ((e, i) :: a), e', i', q, l', (l :: la), lq. split; [reflexivity|]. split; [reflexivity|]. split; [|exact R].
      cbn [lists_with]. destruct (seqb_spec (lvl_tag l) t); [congruence | exact Z].
Qed.
Lemma deep_match t c m : forall e i up l ls, e_tag e = t -> e_attrs e = [(utf8 "class", lvl_class l)] -> lvl_tag l = t -> list_chain up ls ->
  (forall l', In l' (l :: ls) -> lvl_tag l' = t -> lvl_class l' = c) -> (m < lists_with t (l :: ls))%nat -> matches (repeat (T t) m ++ [TC' t c]) ((e, i) :: up).
Proof.
  induction m as [|m IH]; intros e i up l ls TE A TL C K LT.
  - cbn [repeat app]. constructor. split; [exact TE|]. split; [|exact Logic.I]. exists (lvl_class l). split; [rewrite A; left; reflexivity|].
    rewrite (K l (or_introl eq_refl) TL). rewrite <- (K l (or_introl eq_refl) TL). apply word_self, ident_dark, lvl_class_ident.
  - cbn [repeat app]. cbn [lists_with] in LT. destruct (seqb_spec (lvl_tag l) t); [|congruence].
    destruct (next_list t up ls C) as (a & e' & i' & q & l' & la & lq & -> & -> & Z & TL' & TE' & A' & CQ); [lia|].
    apply (ma_desc (T t) (repeat (T t) m ++ [TC' t c]) (e, i) a ((e', i') :: q)); [split; [exact TE|]; split; exact Logic.I | discriminate|].
    apply (IH e' i' q l' lq); auto.
    + intros l2 I2. apply K. destruct I2 as [<-|I2]; right; apply in_or_app; right; [left; reflexivity | right; exact I2].
    + rewrite lists_with_app in LT. lia.
Qed.
Lemma rev_rep {A} (x : A) n : rev (repeat x n) = repeat x n.
Proof. induction n as [|n IH]; [reflexivity|]. cbn [repeat rev]. rewrite IH. symmetry. exact (repeat_cons n x). Qed.

(** ** Winning *)

Lemma count_rep_class t m c : count_some s_class (TC' t c :: repeat (T t) m) = 1%nat.
Proof. unfold count_some. cbn [filter s_class TC' List.length]. f_equal. induction m as [|m IH]; [reflexivity | cbn [repeat filter s_class T]; exact IH]. Qed.
Lemma count_rep_pseudo t m c : count_some s_pseudo (TC' t c :: repeat (T t) m) = 0%nat.
Proof. unfold count_some. cbn [filter s_pseudo TC' List.length]. induction m as [|m IH]; [reflexivity | cbn [repeat filter s_pseudo T]; exact IH]. Qed.
Lemma count_rep_tag t m c : count_some s_tag (TC' t c :: repeat (T t) m) = S m.
Proof. unfold count_some. cbn [filter s_tag TC' List.length]. f_equal. induction m as [|m IH]; [reflexivity | cbn [repeat filter s_tag T List.length]; f_equal; exact IH]. Qed.

Lemma style_marker l v : list_style l = v <-> marker l v.
Proof.
  unfold list_style, marker. assert (OR : is_ordered l = true <-> exists r, v_txt l = 37 :: r).
  { unfold is_ordered. change (utf8 "%") with [37]. destruct (v_txt l) as [|c r]; [split; [discriminate | intros (r & [=])]|]. cbn [startswith].
    rewrite Bool.andb_true_r. rewrite N.eqb_eq. split; [intros <-; eauto | intros (r' & [= -> _]); reflexivity]. }
  destruct (is_ordered l).
  - assert (X : exists r, v_txt l = 37 :: r) by (apply OR; reflexivity). unfold ol_style. split.
    + intros <-. left. split; [exact X|]. destruct (seqb_spec (v_fmt l) (utf8 "decimal")) as [->|ND]; [right; right; repeat split; discriminate|].
      destruct (seqb_spec (v_fmt l) (utf8 "lowerLetter")) as [->|NL]; [left; auto|]. destruct (seqb_spec (v_fmt l) (utf8 "lowerRoman")) as [->|NR]; [right; left; auto|]. right; right; auto.
    + intros [[_ H]|[H _]]; [|destruct X as (r & X); destruct (H r X)].
      destruct H as [[-> ->]|[[-> ->]|(NL & NR & ->)]]; [reflexivity | reflexivity|].
      destruct (seqb _ _); [reflexivity|]. destruct (seqb_spec (v_fmt l) (utf8 "lowerLetter")); [contradiction|]. destruct (seqb_spec (v_fmt l) (utf8 "lowerRoman")); [contradiction|]. reflexivity.
  - assert (X : forall r, v_txt l <> 37 :: r) by (intros r E; assert (false = true) by (apply OR; eauto); discriminate).
    assert (P : (v_ilvl l mod 2 =? 0)%Z = true <-> Z.Even (v_ilvl l)) by (rewrite <- Z.even_spec, Zeven_mod, Z.eqb_eq; apply Zeq_is_eq_bool).
    assert (Q : Z.Odd (v_ilvl l) <-> ~ Z.Even (v_ilvl l)).
    { rewrite <- Z.odd_spec, <- Z.even_spec, <- Z.negb_even. destruct (Z.even _); cbn; split; congruence. }
    split.
    + intros <-. right. split; [exact X|]. destruct (v_ilvl l mod 2 =? 0)%Z; [left; split; [apply P; reflexivity | reflexivity] | right; split; [|reflexivity]]. apply Q. intros E. apply P in E. discriminate.
    + intros [[(r & H) _]|[_ H]]; [destruct (X r H)|]. destruct H as [[E ->]|[E ->]].
      * apply P in E. rewrite E. reflexivity.
      * apply Q in E. destruct (v_ilvl l mod 2 =? 0)%Z; [destruct E; apply P; reflexivity | reflexivity].
Qed.
Lemma str_Z_inj a b : str_of_Z a = str_of_Z b -> a = b.
Proof.
  assert (P : forall p q, str_of_N (Npos p) <> 45 :: str_of_N (Npos q)).
  { intros p q E. pose proof (str_of_N_digits (Npos p)) as D. rewrite E in D. apply Forall_inv in D. vm_compute in D. discriminate D. }
  assert (O : forall p, str_of_N (Npos p) <> [48]).
  { intros p E. change [48] with (str_of_N 0) in E. apply str_of_N_inj in E. discriminate. }
  destruct a as [|p|p], b as [|q|q]; cbn [str_of_Z]; intros H; try reflexivity; try discriminate H.
  - symmetry in H. destruct (O _ H).
  - destruct (O _ H).
  - apply str_of_N_inj in H. congruence.
  - destruct (P _ _ H).
  - symmetry in H. destruct (P _ _ H).
  - injection H as H. apply str_of_N_inj in H. congruence.
Qed.

Lemma class_parts l l' : lvl_tag l = lvl_tag l' -> (lvl_class l = lvl_class l' <-> v_abs l = v_abs l').
Proof. unfold lvl_class. intros ->. split; [intros H; apply app_inv_head in H; exact (str_Z_inj _ _ H) | intros ->; reflexivity]. Qed.
Lemma keyed_get l a lv : keyed l -> (z_get a l = Some lv <-> In (a, lv) l).
Proof.
  intros [N _]. unfold z_get. induction l as [|[b w] l IH]; cbn [find fst]; [split; [discriminate | intros []]|]. inversion N; subst.
  destruct (Z.eqb_spec b a) as [->|NE]; cbn [snd].
  - split; [intros [= ->]; left; reflexivity|]. intros [[= ->]|I]; [reflexivity|]. exfalso. apply H1. apply in_map_iff. exists (a, lv). auto.
  - rewrite (IH H2). split; [intros I; right; exact I | intros [[= -> _]|I]; [congruence | exact I]].
Qed.
(** The position of the levels of [a] among all. *)
Lemma levels_at l a lv : keyed l -> In (a, lv) l -> exists A B, flat_map snd l = A ++ lv ++ B /\ forall v, In v A \/ In v B -> v_abs v <> a.
Proof.
  intros [N K] I. apply in_split in I as (l1 & l2 & ->). exists (flat_map snd l1), (flat_map snd l2). split; [rewrite flat_map_app; reflexivity|].
  intros v IV E. assert (X : exists b w, In (b, w) (l1 ++ l2) /\ In v w).
  { destruct IV as [IV|IV]; apply in_flat_map in IV as ([b w] & IB & IV); exists b, w; (split; [apply in_or_app; auto | exact IV]). }
  destruct X as (b & w & IB & IW). assert (b = a) as ->.
  { rewrite <- E. symmetry. apply (K b w v); [|exact IW]. apply in_or_app. apply in_app_or in IB. destruct IB; [left | right; right]; assumption. }
  rewrite map_app in N. cbn [map fst] in N. apply NoDup_remove_2 in N. apply N. rewrite <- map_app. apply in_map_iff. exists (a, w). auto.
Qed.

Section Lists.
Variables (n : numbering) (c : caches).
Hypothesis CI : caches_inv c.
Hypothesis KEY : keyed (n_abs n).
Variables (a : Z) (lv : list lvl).
Hypothesis GET : z_get a (n_abs n) = Some lv.
Let sh := sheet_rules (Some n) c.

(** At a list element in lists of the numbering [a]. *)
Variables (e : elem) (i : nat) (up : place) (l : lvl) (ls : list lvl).
Hypothesis TE : e_tag e = lvl_tag l.
Hypothesis AE : e_attrs e = [(utf8 "class", lvl_class l)].
Hypothesis LC : list_chain up ls.
Hypothesis IN : forall x, In x (l :: ls) -> In x lv.
Let t := lvl_tag l.
Let k := lists_with t (l :: ls).

Lemma in_abs x : In x lv -> v_abs x = a.
Proof. apply keyed_get in GET; [|exact KEY]. exact (proj2 KEY _ _ _ GET). Qed.
Lemma whole_chain : list_chain ((e, i) :: up) (l :: ls).
Proof. apply lc_list; auto. unfold list_elem. rewrite TE. apply lvl_tag_list. Qed.
Lemma rule_matches x : matches (rev (hd [] (fst (list_rule x)))) ((e, i) :: up) <-> v_abs x = a /\ lvl_tag x = t /\ (Z.to_nat (v_ilvl x) < k)%nat.
Proof.
  cbn [list_rule fst hd]. cbn [rev]. rewrite rev_rep. split.
  - intros M. assert (TX : lvl_tag x = t).
    { destruct (list_tag _ x _ (or_introl eq_refl) ltac:(cbn [rev]; rewrite rev_rep; exact M)) as (e' & i' & up' & E & TG). injection E as <- <- <-. unfold t. congruence. }
    destruct (match_deep (lvl_tag x) (lvl_class x) (Z.to_nat (v_ilvl x)) (lvl_tag_list x) _ _ M whole_chain) as (LT & y & IY & TY & CY).
    split; [|split; [exact TX | unfold k; rewrite <- TX; exact LT]]. apply class_parts in CY; [|exact TY]. rewrite <- CY. exact (in_abs _ (IN _ IY)).
  - intros (AX & TX & LT). rewrite TX. apply (deep_match t (lvl_class x) _ e i up l ls TE AE eq_refl LC); [|exact LT].
    intros y IY TY. apply class_parts; [congruence|]. rewrite AX. exact (in_abs _ (IN _ IY)).
Qed.
Lemma list_only m rs ds s v : nth_error sh m = Some (rs, ds) -> In s rs -> matches (rev s) ((e, i) :: up) -> declares ds (utf8 "list-style-type") v ->
  exists x, nth_error (levels (Some n)) (m - List.length fixed_rules) = Some x /\ (List.length fixed_rules <= m)%nat /\ (rs, ds) = list_rule x.
Proof.
  intros N I M D. unfold sh, sheet_rules in N. destruct (Nat.lt_ge_cases m (List.length fixed_rules)) as [L1|L1].
  - exfalso. rewrite nth_error_app1 in N by exact L1. apply nth_error_In in N. destruct (fixed_tag _ _ _ _ _ _ N I M D) as (e' & i' & up' & E & TG). injection E as <- <- <-.
    rewrite TE in TG. unfold tag_in in TG. destruct (lvl_tag_list l) as [X|X]; rewrite X in TG; vm_compute in TG; repeat (destruct TG as [TG|TG]; [discriminate TG|]); exact TG.
  - rewrite nth_error_app2 in N by exact L1. destruct (Nat.lt_ge_cases (m - List.length fixed_rules) (List.length (map list_rule (levels (Some n))))) as [L2|L2].
    + rewrite nth_error_app1 in N by exact L2. rewrite nth_error_map in N. destruct (nth_error (levels (Some n)) _) as [x|] eqn:E; [|discriminate]. cbn [option_map] in N. exists x. split; [reflexivity|]. split; [exact L1 | congruence].
    + exfalso. rewrite nth_error_app2 in N by exact L2. apply nth_error_In, in_map_iff in N as ([nm at_] & E & IR). injection E as <- <-.
      destruct (class_match (nm, at_) _ s I M) as (e' & i' & up' & w & E & B & W). injection E as <- <- <-. rewrite AE in B. destruct B as [[= <-]|[]].
      apply word_only in W; [|apply ident_dark, lvl_class_ident]. cbn [fst] in W. destruct (rules_names c CI _ _ IR) as (z & [X|X]); rewrite <- W, X in *;
        unfold lvl_class in W; destruct (lvl_tag_list l) as [Y|Y]; rewrite Y in W; discriminate W.
Qed.
Theorem list_wins v : cascaded sh ((e, i) :: up) (utf8 "list-style-type") v <-> exists x, deepest lv t k x /\ marker x v.
Proof.
  pose proof GET as IA. apply keyed_get in IA; [|exact KEY]. destruct (levels_at _ _ _ KEY IA) as (A & B & EL & NO).
  assert (AT : forall m x, nth_error (levels (Some n)) m = Some x -> v_abs x = a -> (List.length A <= m)%nat /\ nth_error lv (m - List.length A) = Some x).
  { intros m x N AX. cbn [levels] in N. rewrite EL in N. destruct (Nat.lt_ge_cases m (List.length A)) as [L1|L1].
    - rewrite nth_error_app1 in N by exact L1. apply nth_error_In in N. destruct (NO x (or_introl N) AX).
    - rewrite nth_error_app2 in N by exact L1. destruct (Nat.lt_ge_cases (m - List.length A) (List.length lv)) as [L2|L2].
      + rewrite nth_error_app1 in N by exact L2. auto.
      + rewrite nth_error_app2 in N by exact L2. apply nth_error_In in N. destruct (NO x (or_intror N) AX). }
  assert (DL : forall x v, declares (snd (list_rule x)) (utf8 "list-style-type") v <-> list_style x = v).
  { intros x w. rewrite declares_in by (repeat constructor; intros []). cbn [list_rule snd In]. split; [intros [[= ->]|[]]; reflexivity | intros ->; auto]. }
  assert (PR : forall x, (count_some s_class (hd [] (fst (list_rule x))) + count_some s_pseudo (hd [] (fst (list_rule x))), count_some s_tag (hd [] (fst (list_rule x))))%nat = (1, S (Z.to_nat (v_ilvl x)))%nat).
  { intros x. cbn [list_rule fst hd]. f_equal; [|exact (count_rep_tag _ _ _)]. rewrite (count_rep_class (lvl_tag x) _ (lvl_class x)), (count_rep_pseudo (lvl_tag x) _ (lvl_class x)). reflexivity. }
  assert (UP : forall j x, nth_error lv j = Some x -> nth_error sh (List.length fixed_rules + (List.length A + j)) = Some (list_rule x)).
  { intros j x N. unfold sh, sheet_rules. rewrite nth_error_app2 by lia. replace (List.length fixed_rules + (List.length A + j) - List.length fixed_rules)%nat with (List.length A + j)%nat by lia.
    assert (LJ : (j < List.length lv)%nat) by (apply nth_error_Some; congruence).
    assert (LL : nth_error (levels (Some n)) (List.length A + j) = Some x).
    { cbn [levels]. rewrite EL, nth_error_app2 by lia. replace (List.length A + j - List.length A)%nat with j by lia. rewrite nth_error_app1 by exact LJ. exact N. }
    rewrite nth_error_app1 by (rewrite map_length; apply nth_error_Some; congruence). rewrite nth_error_map, LL. reflexivity. }
  split.
  - intros (pr & (m & rs & ds & s & N & I & M & D & ->) & MAX). destruct (list_only _ _ _ _ _ N I M D) as (x & NX & LM & E). injection E as -> ->. destruct I as [<-|[]].
    pose proof M as M'. apply (rule_matches x) in M' as (AX & TX & LT). destruct (AT _ _ NX AX) as [LA NL].
    exists x. split; [|apply style_marker, DL; exact D]. exists (m - List.length fixed_rules - List.length A)%nat. split; [exact NL|]. split; [exact TX|]. split; [exact LT|].
    intros j' x' N' TX' LT'. assert (AX' := in_abs _ (nth_error_In _ _ N')).
    specialize (MAX (count_some s_class (hd [] (fst (list_rule x'))) + count_some s_pseudo (hd [] (fst (list_rule x'))), count_some s_tag (hd [] (fst (list_rule x'))), List.length fixed_rules + (List.length A + j'))%nat (list_style x')).
    assert (AP : outranks (count_some s_class (hd [] (fst (list_rule x))) + count_some s_pseudo (hd [] (fst (list_rule x))), count_some s_tag (hd [] (fst (list_rule x))), m)%nat
                   (count_some s_class (hd [] (fst (list_rule x'))) + count_some s_pseudo (hd [] (fst (list_rule x'))), count_some s_tag (hd [] (fst (list_rule x'))), List.length fixed_rules + (List.length A + j'))%nat).
    { apply MAX. exists (List.length fixed_rules + (List.length A + j'))%nat, (fst (list_rule x')), (snd (list_rule x')), (hd [] (fst (list_rule x'))).
      split; [rewrite (UP _ _ N'); reflexivity|]. split; [left; reflexivity|]. split; [apply rule_matches; auto|]. split; [apply DL; reflexivity | reflexivity]. }
    rewrite !PR in AP. unfold outranks in AP. lia.
  - intros (x & (j & NJ & TX & LT & MAX) & MK). apply style_marker in MK.
    apply (cascaded_max _ _ _ (List.length fixed_rules + (List.length A + j)) (fst (list_rule x)) (snd (list_rule x)) (hd [] (fst (list_rule x)))).
    + exact (UP _ _ NJ).
    + left. reflexivity.
    + apply rule_matches. split; [exact (in_abs _ (nth_error_In _ _ NJ)) | auto].
    + apply DL. exact MK.
    + intros m' rs' ds' s' v' N' I' M' D'. destruct (list_only _ _ _ _ _ N' I' M' D') as (x' & NX' & LM' & E). injection E as -> ->. destruct I' as [<-|[]].
      pose proof M' as M2. apply (rule_matches x') in M2 as (AX' & TX' & LT'). destruct (AT _ _ NX' AX') as [LA' NL'].
      specialize (MAX _ _ NL' TX' LT').
      change (mkSimple (Some (lvl_tag x')) (Some (lvl_class x')) None :: repeat (mkSimple (Some (lvl_tag x')) None None) (Z.to_nat (v_ilvl x'))) with (hd [] (fst (list_rule x'))).
      rewrite !PR. unfold outranks. lia.
Qed.
End Lists.
