(** Properties C64 to C67. *)
From Coq Require Import NArith ZArith List Bool String Lia.
From Verif Require Import PyStr PyStrFacts Xml Json Lint RowIter Helpers Extract Docx Render SpecFmt SpecHtml SpecList SpecDocx QueryProofs RunProofs.
From Verif Require Import GridProofs Prop_Fmt HtmlProofs ListProofs DocxTotal DocxFlow Prop_Html Document Output Prop_List.
Import ListNotations.
Local Open Scope string_scope.
Local Open Scope list_scope.
Local Open Scope N_scope.

Lemma Forall2_impl {A B} (P Q : A -> B -> Prop) : (forall a b, P a b -> Q a b) -> forall l r, Forall2 P l r -> Forall2 Q l r.
Proof. intros H l r F. induction F; constructor; auto. Qed.

(** ** C64 *)

Lemma z_get_set {V} k (v : V) d j : z_get j (z_set k v d) = if (k =? j)%Z then Some v else z_get j d.
Proof.
  unfold z_get. induction d as [|[k' v'] d IH]; cbn [z_set find fst].
  - destruct (Z.eqb_spec k j); reflexivity.
  - destruct (Z.eqb_spec k' k) as [->|N]; cbn [find fst].
    + destruct (Z.eqb_spec k j); reflexivity.
    + destruct (Z.eqb_spec k' j) as [->|N']; [destruct (Z.eqb_spec k j) as [->|]; [contradiction | reflexivity]|]. exact IH.
Qed.

(** The last entry with a number counts. *)
Lemma last_cons {A} (P : A -> Prop) a l x : last_with P l x -> last_with P (a :: l) x.
Proof. intros (l1 & l2 & -> & PX & F). exists (a :: l1), l2. auto. Qed.
Section Dict.
Context {A V : Type}.
Variable kv : A -> dres (Z * V).
Fixpoint fill (es : list A) (d : list (Z * V)) : dres (list (Z * V)) :=
  match es with [] => DOk d | e :: r => dlet (k, v) <- kv e; fill r (z_set k v d) end.
Lemma fill_get : forall es d d', fill es d = DOk d' -> forall z v,
  z_get z d' = Some v <->
    (exists e, last_with (fun e => exists v, kv e = DOk (z, v)) es e /\ kv e = DOk (z, v))
    \/ (Forall (fun e => ~ exists v, kv e = DOk (z, v)) es /\ z_get z d = Some v).
Proof.
  induction es as [|e r IH]; intros d d' H z v; cbn [fill] in H.
  - injection H as <-. split; [intros G; right; auto | intros [(e & (l1 & l2 & E & _) & _)|[_ G]]; [destruct l1; discriminate | exact G]].
  - destruct (kv e) as [[k w]| |] eqn:K; cbn [dbind] in H; try discriminate. rewrite (IH _ _ H z v), z_get_set. split.
    + intros [(e' & L & E)|[F G]]; [left; exists e'; split; [apply last_cons; exact L | exact E]|].
      destruct (Z.eqb_spec k z) as [->|N].
      * injection G as ->. left. exists e. split; [exists [], r; split; [reflexivity|]; split; [eauto | exact F] | exact K].
      * right. split; [constructor; [|exact F]; intros (v' & E); congruence | exact G].
    + intros [(e' & (l1 & l2 & E & P & F) & KE)|[F G]].
      * destruct l1 as [|x l1]; cbn [app] in E; injection E as <- ->.
        -- right. split; [exact F|]. assert (k = z /\ w = v) as [-> ->] by (rewrite K in KE; injection KE; auto). rewrite Z.eqb_refl. reflexivity.
        -- left. exists e'. split; [exists l1, l2; auto | exact KE].
      * inversion F as [|? ? NE F']; subst. right. split; [exact F'|]. destruct (Z.eqb_spec k z) as [->|N]; [exfalso; apply NE; eauto | exact G].
Qed.
Lemma fill_ok : forall es d d', fill es d = DOk d' -> forall e, In e es -> exists z v, kv e = DOk (z, v).
Proof.
  induction es as [|e r IH]; intros d d' H x []; cbn [fill] in H; destruct (kv e) as [[k w]| |] eqn:K; cbn [dbind] in H; try discriminate.
  - subst x. eauto.
  - exact (IH _ _ H x H0).
Qed.
End Dict.

Definition num_kv (e : welem) : dres (Z * Z) :=
  dlet n <- match attr_first [] "w:numId" e with Some s => d_int s | None => DErr DValue end;
  dlet a <- match attr_first ["w:abstractNumId"] "w:val" e with Some s => d_int s | None => DErr DValue end; DOk (n, a).
Definition abs_kv (e : welem) : dres (Z * list lvl) :=
  dlet n <- attr_first_req [] "w:abstractNumId" e; dlet n <- d_int n;
  dlet ls <- dmap (parse_lvl n) (w_children "w:lvl" e); DOk (n, ls).
Lemma parse_nums_fill es : forall d, parse_nums es d = fill num_kv es d.
Proof.
  induction es as [|e r IH]; intros d; cbn [parse_nums fill]; [reflexivity|]. unfold num_kv.
  destruct (attr_first [] _ e) as [s|]; cbn [dbind]; [|reflexivity]. destruct (d_int s); cbn [dbind]; try reflexivity.
  destruct (attr_first _ _ e) as [s'|]; cbn [dbind]; [|reflexivity]. destruct (d_int s'); cbn [dbind]; [apply IH | reflexivity | reflexivity].
Qed.
Lemma parse_abs_fill es : forall d, parse_abs es d = fill abs_kv es d.
Proof.
  induction es as [|e r IH]; intros d; cbn [parse_abs fill]; [reflexivity|]. unfold abs_kv.
  destruct (attr_first_req [] _ e) as [s| |]; cbn [dbind]; try reflexivity. destruct (d_int s) as [n| |]; cbn [dbind]; try reflexivity.
  destruct (dmap _ _); cbn [dbind]; [apply IH | reflexivity | reflexivity].
Qed.
Lemma num_kv_iff e z a : num_kv e = DOk (z, a) <-> num_number e z /\ num_refers e a.
Proof.
  unfold num_kv, num_number, num_refers. rewrite attr_here. split.
  - destruct (w_attr "w:numId" e) as [s|]; cbn [dbind]; [|discriminate]. destruct (d_int s) as [n| |] eqn:N; cbn [dbind]; try discriminate.
    destruct (attr_first _ _ e) as [s'|] eqn:A; cbn [dbind]; [|discriminate]. destruct (d_int s') as [m| |] eqn:M; cbn [dbind]; try discriminate.
    intros [= -> ->]. apply d_int_iff in N, M. split; [eauto|]. exists s'. split; [apply child_value_iff; exact A | exact M].
  - intros [(s & -> & N) (s' & A & M)]. apply d_int_iff in N, M. apply child_value_iff in A. rewrite N. cbn [dbind]. rewrite A, M. reflexivity.
Qed.
Lemma parse_lvl_iff a e l : parse_lvl a e = DOk l <-> lvl_reads a e l.
Proof.
  unfold parse_lvl, lvl_reads, attr_first_req. rewrite attr_here. split.
  - destruct (w_attr "w:ilvl" e) as [s|]; cbn [dbind]; [|discriminate]. destruct (d_int s) as [i| |] eqn:I; cbn [dbind]; try discriminate.
    destruct (attr_first ["w:numFmt"] _ e) as [f|] eqn:F; cbn [dbind]; [|discriminate].
    destruct (attr_first ["w:lvlText"] _ e) as [t|] eqn:T; cbn [dbind]; [|discriminate]. intros [= <-]. cbn [v_abs v_ilvl v_fmt v_txt].
    apply d_int_iff in I. split; [reflexivity|]. split; [eauto|]. split; apply child_value_iff; assumption.
  - destruct l as [a' i f t]; cbn [v_abs v_ilvl v_fmt v_txt]. intros (-> & (s & -> & I) & F & T). apply d_int_iff in I. apply child_value_iff in F, T.
    cbn [dbind]. rewrite I. cbn [dbind]. rewrite F, T. reflexivity.
Qed.
Lemma abs_kv_iff e z ls : abs_kv e = DOk (z, ls) <-> abs_number e z /\ Forall2 (lvl_reads z) (w_children "w:lvl" e) ls.
Proof.
  unfold abs_kv, abs_number, attr_first_req. rewrite attr_here. split.
  - destruct (w_attr "w:abstractNumId" e) as [s|]; cbn [dbind]; [|discriminate]. destruct (d_int s) as [n| |] eqn:N; cbn [dbind]; try discriminate.
    destruct (dmap _ _) as [l| |] eqn:D; cbn [dbind]; try discriminate. intros [= -> ->]. apply d_int_iff in N. split; [eauto|].
    apply dmap_iff in D. revert D. apply Forall2_impl. intros x y. apply parse_lvl_iff.
  - intros [(s & -> & N) F]. apply d_int_iff in N. cbn [dbind]. rewrite N. cbn [dbind]. rewrite (proj2 (dmap_iff _ _ ls)); [reflexivity|].
    revert F. apply Forall2_impl. intros x y. apply parse_lvl_iff.
Qed.
Lemma last_with_ext {A} (P Q : A -> Prop) l x : (forall y, In y l -> (P y <-> Q y)) -> last_with P l x -> last_with Q l x.
Proof.
  intros H (l1 & l2 & -> & PX & F). exists l1, l2. split; [reflexivity|]. split; [apply H; [apply in_or_app; right; left; reflexivity | exact PX]|].
  rewrite Forall_forall in *. intros y I QY. apply (F y I). apply H; [apply in_or_app; right; right; exact I | exact QY].
Qed.

(** A paragraph belongs to a list exactly if there is a numbering and one of its w:num has the
    number of the paragraph. *)
Theorem C64_listed doc n id z : parse_numbering doc = DOk n -> py_int id = Some z ->
  exists b, has_num_id n id = DOk b /\ (b = true <-> exists e, child "w:num" doc e /\ num_number e z).
Proof.
  intros H E. apply d_int_iff in E. unfold parse_numbering in H. destruct (parse_abs _ []) as [a| |]; cbn [dbind] in H; try discriminate.
  destruct (parse_nums _ []) as [m| |] eqn:N; cbn [dbind] in H; try discriminate. injection H as <-. rewrite parse_nums_fill in N.
  unfold has_num_id. rewrite E. cbn [dbind n_nums]. eexists. split; [reflexivity|]. unfold child.
  destruct (z_get z m) as [v|] eqn:G; split; try congruence.
  - intros _. apply (fill_get _ _ _ _ N) in G as [(e & (l1 & l2 & L & _ & _) & K)|[_ X]]; [|discriminate X].
    exists e. apply num_kv_iff in K as [K _]. split; [|exact K]. assert (I : In e (w_children "w:num" doc)) by (rewrite L; apply in_or_app; right; left; reflexivity).
    apply filter_In in I as [I T]. split; [exact I | apply is_tag_iff; exact T].
  - intros (e & (I & T) & NN). exfalso. assert (I' : In e (w_children "w:num" doc)) by (apply filter_In; split; [exact I | apply is_tag_iff; exact T]).
    destruct (fill_ok _ _ _ _ N e I') as (z' & v & K). pose proof (proj1 (num_kv_iff _ _ _) K) as [(s & A & D) _]. destruct NN as (s' & A' & D').
    assert (z' = z) as -> by congruence. clear A D A' D' s s'.
    assert (X : exists q, last_with (fun e => exists v, num_kv e = DOk (z, v)) (w_children "w:num" doc) q).
    { clear - I' K. induction (w_children "w:num" doc) as [|c l IH]; [destruct I'|].
      assert (DEC : forall y, {exists v, num_kv y = DOk (z, v)} + {~ exists v, num_kv y = DOk (z, v)}).
      { intros y. destruct (num_kv y) as [[k w]| |]; [|right; intros (? & ?); discriminate..]. destruct (Z.eq_dec k z) as [->|NE]; [left; eauto | right; intros (? & ?); congruence]. }
      destruct (Exists_dec (fun y => exists v, num_kv y = DOk (z, v)) l DEC) as [EX|NX].
      - apply Exists_exists in EX as (y & IY & vy & KY).
        assert (LL : exists q, last_with (fun e => exists v, num_kv e = DOk (z, v)) l q).
        { clear - IY KY DEC. revert y vy IY KY. induction l as [|b l IH]; intros y vy []; intros KY.
          - subst b. destruct (Exists_dec (fun y => exists v, num_kv y = DOk (z, v)) l DEC) as [EX|NX].
            + apply Exists_exists in EX as (w & IW & vw & KW). destruct (IH w vw IW KW) as [q Q]. exists q. apply last_cons. exact Q.
            + exists y, [], l. split; [reflexivity|]. split; [eauto|]. apply Forall_forall. intros w IW X. apply NX, Exists_exists. eauto.
          - destruct (IH y vy H KY) as [q Q]. exists q. apply last_cons. exact Q. }
        destruct LL as [q Q]. exists q. apply last_cons. exact Q.
      - destruct I' as [->|I]; [|exfalso; apply NX, Exists_exists; eauto]. exists e, [], l. split; [reflexivity|]. split; [eauto|].
        apply Forall_forall. intros w IW X. apply NX, Exists_exists. eauto. }
    destruct X as (q & Q). assert (exists v, num_kv q = DOk (z, v)) as [vq KQ] by (destruct Q as (? & ? & _ & X & _); exact X).
    pose proof (proj2 (fill_get _ _ _ _ N z vq) (or_introl (ex_intro _ q (conj Q KQ)))). congruence.
Qed.
Print Assumptions C64_listed.

(** The level properties found for the level [i] of the list number [z]: of the last w:num with
    this number, the last w:abstractNum with the number it refers to, and of that the w:lvl that
    is number [i] in order (counted from the end if [i] is negative), whatever its w:ilvl is. *)
Theorem C64_level doc n z i l : parse_numbering doc = DOk n ->
  (exists a ls, num_style n z = DOk (a, ls) /\ get_ilvl ls i = DOk l) <->
  (z <> 0%Z /\ exists num abs a lv,
     last_with (fun e => num_number e z) (filter (is_tag "w:num") (w_kids doc)) num /\ num_refers num a
     /\ last_with (fun e => abs_number e a) (filter (is_tag "w:abstractNum") (w_kids doc)) abs
     /\ (let lvls := filter (is_tag "w:lvl") (w_kids abs) in
         if (0 <=? i)%Z then nth_error lvls (Z.to_nat i) = Some lv
         else (- i <= Z.of_nat (List.length lvls))%Z /\ nth_error lvls (List.length lvls - Z.to_nat (- i)) = Some lv)
     /\ lvl_reads a lv l).
Proof.
  intros H. unfold parse_numbering in H. destruct (parse_abs _ []) as [am| |] eqn:A; cbn [dbind] in H; try discriminate.
  destruct (parse_nums _ []) as [m| |] eqn:N; cbn [dbind] in H; try discriminate. injection H as <-. rewrite parse_nums_fill in N. rewrite parse_abs_fill in A.
  fold (w_children "w:num" doc) (w_children "w:abstractNum" doc).
  assert (NK : forall e z, In e (w_children "w:num" doc) -> ((exists v, num_kv e = DOk (z, v)) <-> num_number e z)).
  { intros e z0 I. split; [intros (v & K); apply num_kv_iff in K; tauto|]. intros NN. destruct (fill_ok _ _ _ _ N e I) as (z' & v & K).
    pose proof (proj1 (num_kv_iff _ _ _) K) as [(s & AA & D) _]. destruct NN as (s' & A' & D'). assert (z' = z0) as -> by congruence. eauto. }
  assert (AK : forall e z, In e (w_children "w:abstractNum" doc) -> ((exists v, abs_kv e = DOk (z, v)) <-> abs_number e z)).
  { intros e z0 I. split; [intros (v & K); apply abs_kv_iff in K; tauto|]. intros NN. destruct (fill_ok _ _ _ _ A e I) as (z' & v & K).
    pose proof (proj1 (abs_kv_iff _ _ _) K) as [(s & AA & D) _]. destruct NN as (s' & A' & D'). assert (z' = z0) as -> by congruence. eauto. }
  assert (IX : forall (lvls : list welem) (ls : list lvl) a, Forall2 (lvl_reads a) lvls ls ->
    (get_ilvl ls i = DOk l <-> exists lv, (if (0 <=? i)%Z then nth_error lvls (Z.to_nat i) = Some lv
         else (- i <= Z.of_nat (List.length lvls))%Z /\ nth_error lvls (List.length lvls - Z.to_nat (- i)) = Some lv) /\ lvl_reads a lv l)).
  { intros lvls ls a F. assert (LN : List.length lvls = List.length ls) by (clear - F; induction F; cbn; congruence).
    assert (NE : forall k, nth_error ls k = Some l <-> exists lv, nth_error lvls k = Some lv /\ lvl_reads a lv l).
    { clear - F. induction F as [|x y lvls ls R F IH]; intros [|k]; cbn [nth_error]; try (split; [discriminate | intros (? & ? & _); discriminate]).
      - split; [intros [= <-]; eauto|]. intros (lv & [= <-] & R'). apply parse_lvl_iff in R, R'. congruence.
      - apply IH. }
    unfold get_ilvl, py_index. rewrite LN. destruct (Z.ltb_spec i 0) as [L|L].
    - replace (0 <=? i)%Z with false by (symmetry; apply Z.leb_gt; lia).
      destruct (Z.ltb_spec (i + Z.of_nat (List.length ls)) 0) as [L2|L2].
      + split; [discriminate|]. intros (lv & [B _] & _). lia.
      + replace (Z.to_nat (i + Z.of_nat (List.length ls))) with (List.length ls - Z.to_nat (- i))%nat by lia. split.
        * destruct (nth_error ls _) as [x|] eqn:E; [|discriminate]. intros [= ->]. apply NE in E as (lv & E & R). exists lv. split; [split; [lia | exact E] | exact R].
        * intros (lv & [_ E] & R). rewrite (proj2 (NE _)); [reflexivity | eauto].
    - replace (0 <=? i)%Z with true by (symmetry; apply Z.leb_le; lia). replace (i <? 0)%Z with false by (symmetry; apply Z.ltb_ge; lia). split.
      + destruct (nth_error ls _) as [x|] eqn:E; [|discriminate]. intros [= ->]. apply NE in E. exact E.
      + intros X. rewrite (proj2 (NE _) X). reflexivity. }
  unfold num_style. cbn [n_nums n_abs]. split.
  - intros (a & ls & S & G). destruct (Z.eqb_spec z 0) as [|NZ]; [discriminate|]. split; [exact NZ|].
    destruct (z_get z m) as [a'|] eqn:GM; [|discriminate]. destruct (z_get a' am) as [ls'|] eqn:GA; [|discriminate]. injection S as -> ->.
    apply (fill_get _ _ _ _ N) in GM as [(num & LN & KN)|[_ X]]; [|discriminate X]. apply (fill_get _ _ _ _ A) in GA as [(ab & LA & KA)|[_ X]]; [|discriminate X].
    apply num_kv_iff in KN as [_ RF]. apply abs_kv_iff in KA as [_ F]. apply (IX _ _ _ F) in G as (lv & G & R).
    exists num, ab, a, lv. split; [eapply last_with_ext; [|exact LN]; intros y I; apply NK; exact I|]. split; [exact RF|].
    split; [eapply last_with_ext; [|exact LA]; intros y I; apply AK; exact I|]. split; [exact G | exact R].
  - intros (NZ & num & ab & a & lv & LN & RF & LA & G & R). destruct (Z.eqb_spec z 0) as [|_]; [contradiction|].
    assert (LN' : last_with (fun e => exists v, num_kv e = DOk (z, v)) (w_children "w:num" doc) num) by (eapply last_with_ext; [|exact LN]; intros y I; symmetry; apply NK; exact I).
    assert (LA' : last_with (fun e => exists v, abs_kv e = DOk (a, v)) (w_children "w:abstractNum" doc) ab) by (eapply last_with_ext; [|exact LA]; intros y I; symmetry; apply AK; exact I).
    assert (KN : num_kv num = DOk (z, a)). { destruct LN as (? & ? & _ & NN & _). apply num_kv_iff. auto. }
    assert (exists ls, abs_kv ab = DOk (a, ls)) as [ls KA] by (destruct LA' as (? & ? & _ & X & _); exact X).
    rewrite (proj2 (fill_get _ _ _ _ N z a) (or_introl (ex_intro _ num (conj LN' KN)))).
    rewrite (proj2 (fill_get _ _ _ _ A a ls) (or_introl (ex_intro _ ab (conj LA' KA)))).
    exists a, ls. split; [reflexivity|]. apply abs_kv_iff in KA as [_ F]. apply (IX _ _ _ F). exists lv. auto.
Qed.
Print Assumptions C64_level.

(** In terms of the vocabulary of the lists (C45): the list number [z] is known if a w:num has
    it, and what [numbered] and [level_at] give are the properties above. *)
Theorem C64_known d doc n z : parse_numbering doc = DOk n -> dx_num d = Some n ->
  (known_list d z <-> exists e, child "w:num" doc e /\ num_number e z).
Proof.
  intros P E. rewrite (known_list_iff d z n E). unfold parse_numbering in P. destruct (parse_abs _ []) as [a| |]; cbn [dbind] in P; try discriminate.
  destruct (parse_nums _ []) as [m| |] eqn:N; cbn [dbind] in P; try discriminate. injection P as <-. rewrite parse_nums_fill in N. cbn [n_nums].
  assert (K : forall e, In e (w_children "w:num" doc) -> ((exists v, num_kv e = DOk (z, v)) <-> num_number e z)).
  { intros e I. split; [intros (v & K); apply num_kv_iff in K; tauto|]. intros NN. destruct (fill_ok _ _ _ _ N e I) as (z' & v & K).
    pose proof (proj1 (num_kv_iff _ _ _) K) as [(s & AA & D) _]. destruct NN as (s' & A' & D'). assert (z' = z) as -> by congruence. eauto. }
  assert (IN : forall e, In e (w_children "w:num" doc) <-> child "w:num" doc e) by (intros e; unfold w_children, child; rewrite filter_In, is_tag_iff; tauto).
  split.
  - intros G. destruct (z_get z m) as [v|] eqn:Z; [|congruence]. apply (fill_get _ _ _ _ N) in Z as [(e & (l1 & l2 & L & _ & _) & X)|[_ X]]; [|discriminate X].
    assert (I : In e (w_children "w:num" doc)) by (rewrite L; apply in_or_app; right; left; reflexivity).
    exists e. split; [apply IN; exact I | apply K; eauto].
  - intros (e & C & NN). destruct (z_get z m) as [v|] eqn:Z; [discriminate|]. exfalso. apply IN in C. apply (K e C) in NN as (v & KV).
    clear - N C KV Z. revert N C KV Z. generalize (w_children "w:num" doc), (@nil (Z * Z)). intros es.
    assert (KEEP : forall es acc r, fill num_kv es acc = DOk r -> z_get z acc <> None -> z_get z r <> None).
    { clear. induction es as [|e es IH]; intros acc r F G; cbn [fill] in F; [injection F as <-; exact G|].
      destruct (num_kv e) as [[k w]| |]; cbn [dbind] in F; try discriminate. apply (IH _ _ F). rewrite z_get_set. destruct (k =? z)%Z; [discriminate | exact G]. }
    induction es as [|x es IH]; intros acc F I KV Z; cbn [fill] in F; [destruct I|]. destruct I as [->|I].
    + rewrite KV in F. cbn [dbind] in F. apply (KEEP _ _ _ F); [rewrite z_get_set, Z.eqb_refl; discriminate | exact Z].
    + destruct (num_kv x) as [[k w]| |]; cbn [dbind] in F; try discriminate. exact (IH _ F I KV Z).
Qed.
Print Assumptions C64_known.
Theorem C64_numbered d doc n z i l : parse_numbering doc = DOk n -> dx_num d = Some n ->
  (exists a ls, numbered d z a ls /\ level_at ls i l) <->
  (z <> 0%Z /\ exists num abs a lv,
     last_with (fun e => num_number e z) (filter (is_tag "w:num") (w_kids doc)) num /\ num_refers num a
     /\ last_with (fun e => abs_number e a) (filter (is_tag "w:abstractNum") (w_kids doc)) abs
     /\ level_at (filter (is_tag "w:lvl") (w_kids abs)) i lv /\ lvl_reads a lv l).
Proof.
  intros P E. pose proof (C64_level doc n z i l P) as H. unfold level_at at 2. etransitivity; [|exact H].
  split; intros (a & ls & N & L); exists a, ls; (split; [|apply level_at_iff; exact L]).
  - apply numbered_iff in N. unfold p_style in N. rewrite E in N. exact N.
  - apply numbered_iff. unfold p_style. rewrite E. exact N.
Qed.
Print Assumptions C64_numbered.

(** So the level need not be the one that declares this w:ilvl. *)
Definition lx_rev : welem := lx_e "w:numbering" []
  [lx_e "w:abstractNum" [("w:abstractNumId", "7")] [lx_lvl "1" "o"; lx_lvl "0" "%1."];
   lx_e "w:num" [("w:numId", "1")] [lx_e "w:abstractNumId" [("w:val", "7")] []]].
Theorem C64_by_number_refuted : exists doc n a ls l,
  parse_numbering doc = DOk n /\ num_style n 1 = DOk (a, ls) /\ get_ilvl ls 0 = DOk l /\ v_ilvl l <> 0%Z
  /\ exists l', In l' ls /\ v_ilvl l' = 0%Z.
Proof. exists lx_rev. do 4 eexists. split; [vm_compute; reflexivity|]. split; [vm_compute; reflexivity|]. split; [vm_compute; reflexivity|].
  split; [discriminate|]. eexists. split; [right; left; reflexivity | reflexivity]. Qed.
Print Assumptions C64_by_number_refuted.
Example C64_ex : exists n l, parse_numbering lx_num = DOk n /\ num_style n 1 = DOk (7%Z, l) /\ List.length l = 3%nat.
Proof. do 2 eexists. split; [vm_compute; reflexivity|]. split; [vm_compute; reflexivity|]. reflexivity. Qed.
(** ** C65 *)

(** The text of a paragraph, as shown: that of its runs in order. *)
Theorem C65_text d p sps : parse_spans d p = DOk sps -> exists rs, runs (w_kids p) rs /\ run_texts rs (map sp_text sps).
Proof.
  unfold parse_spans. destruct (select_runs (w_kids p)) as [rs| |] eqn:R; cbn [dbind]; try discriminate.
  destruct (dmap (run_spans d) rs) as [ls| |] eqn:D; cbn [dbind]; try discriminate. intros [= <-]. exists rs. split; [apply select_runs_iff; exact R|].
  apply dmap_iff in D. clear R. induction D as [|r l rs ls F D IH]; cbn [List.concat]; [constructor|].
  destruct (run_spans_text _ _ _ F) as [(-> & N)|(s & -> & T & _)]; cbn [app map]; [apply rt_none | apply rt_text]; assumption.
Qed.
(** The runs and their texts are determined by the paragraph. *)
Theorem C65_unique ks rs rs' xs xs' : runs ks rs -> runs ks rs' -> run_texts rs xs -> run_texts rs' xs' -> rs = rs' /\ xs = xs'.
Proof.
  intros R R' T T'. apply select_runs_iff in R, R'. assert (rs' = rs) as -> by congruence. split; [reflexivity|]. clear R R'.
  revert xs' T'. induction T as [|r rs xs N T IH|r rs x xs TX T IH]; intros xs' T'; inversion T' as [|? ? ? N' T2|? ? x' ? TX' T2]; subst; auto.
  - exfalso. exact (N _ TX').
  - exfalso. exact (N' _ TX).
  - f_equal; [|auto]. destruct TX as (t & F & E), TX' as (t' & F' & E'). rewrite (first_with_det _ _ _ _ F F') in E. congruence.
Qed.
(** If reading the formats does not fail, the paragraph is read exactly if every link has a run. *)
Theorem C65_defined d p : (forall rs r, runs (w_kids p) rs -> In r rs -> exists f, extract_r_rpr (dx_styles d) r = DOk f) ->
  ((exists sps, parse_spans d p = DOk sps) <->
   forall k, In k (w_kids p) -> w_tag k = utf8 "w:hyperlink" \/ w_tag k = utf8 "w:fldSimple" -> exists x, child "w:r" k x).
Proof.
  intros FM. split.
  - intros (sps & H) k I L. destruct (C65_text _ _ _ H) as (rs & R & _). clear - R I L. induction R as [|q ks rs T R IH|q ks x rs T FC R IH|q ks rs T T1 T2 R IH]; [destruct I|..]; destruct I as [->|I]; auto.
    + rewrite T in L. destruct L; discriminate.
    + destruct FC as (a & b & E & TX & _). exists x. split; [rewrite E; apply in_or_app; right; left; reflexivity | exact TX].
    + destruct L; contradiction.
  - intros L. assert (exists rs, select_runs (w_kids p) = DOk rs) as [rs R].
    { clear FM. revert L. generalize (w_kids p). induction l as [|k ks IH]; intros L; cbn [select_runs]; [eauto|]. destruct IH as [rs R]; [intros q I; apply L; right; exact I|].
      destruct (is_tag "w:r" k); [rewrite R; cbn [dbind]; eauto|]. destruct (is_tag "w:hyperlink" k || is_tag "w:fldSimple" k) eqn:LK; [|eauto].
      apply orb_true_iff in LK. rewrite !is_tag_iff in LK. destruct (L k (or_introl eq_refl) LK) as (x & I & T).
      unfold elem_first_req. destruct (elem_first ["w:r"] k) as [y|] eqn:E; cbn [dbind]; [rewrite R; cbn [dbind]; eauto|]. exfalso.
      unfold elem_first in E. cbn [w_path] in E. unfold w_children in E. assert (In x (filter (is_tag "w:r") (w_kids k))) as I' by (apply filter_In; split; [exact I | apply is_tag_iff; exact T]).
      destruct (filter (is_tag "w:r") (w_kids k)); [destruct I' | discriminate E]. }
    unfold parse_spans. rewrite R. cbn [dbind]. assert (F : forall r, In r rs -> exists f, extract_r_rpr (dx_styles d) r = DOk f) by (intros r; apply FM, select_runs_iff, R).
    assert (exists ls, dmap (run_spans d) rs = DOk ls) as [ls D]; [|rewrite D; cbn [dbind]; eauto].
    clear R. induction rs as [|r rs IH]; cbn [dmap]; [eauto|]. destruct IH as [ls D]; [intros q I; apply F; right; exact I|]. rewrite D.
    destruct (F r (or_introl eq_refl)) as [f E]. unfold run_spans. rewrite E. destruct (elem_first _ r) as [t|]; [destruct (w_text t)|]; cbn [dbind]; eauto.
Qed.
Print Assumptions C65_text.
Print Assumptions C65_unique.
Print Assumptions C65_defined.
(** So not all text below a paragraph is shown: of a link with two runs, only the first. *)
Definition tx_run (x : string) : welem := lx_e "w:r" [] [W 0 (utf8 "w:t") [] (Some (utf8 x)) []].
Definition tx_link : welem := lx_e "w:p" [] [tx_run "see "; lx_e "w:hyperlink" [] [tx_run "Figure "; tx_run "12"]; tx_run "."].
Theorem C65_all_refuted : exists d p sps t, parse_spans d p = DOk sps /\ In t (below p) /\ w_tag t = utf8 "w:t"
  /\ exists x, w_text t = Some x /\ x <> [] /\ ~ In x (map sp_text sps).
Proof.
  exists lx_doc, tx_link. eexists. exists (W 0 (utf8 "w:t") [] (Some (utf8 "12")) []). split; [vm_compute; reflexivity|].
  split; [vm_compute; do 8 (try (left; reflexivity); right)|]. split; [reflexivity|]. exists (utf8 "12"). split; [reflexivity|]. split; [discriminate|].
  vm_compute. intros [H|[H|[H|[]]]]; discriminate H.
Qed.
Print Assumptions C65_all_refuted.

(** ** C66 *)

Lemma plain_reads s : plain s -> reads s s.
Proof. induction 1 as [|c s (_ & A & L & _) _ IH]; constructor; assumption. Qed.
Lemma plain_utf8_css : plain (utf8 ".css").
Proof. repeat constructor; discriminate. Qed.
Lemma plain_app a b : plain a -> plain b -> plain (a ++ b).
Proof. unfold plain. intros A B. apply Forall_app. auto. Qed.
Lemma plain_attr (k v : str) : plain v -> fst (k, v) = fst (k, v) /\ reads (snd (k, v)) (snd (k, v)) /\ Forall (fun c => c <> 34 /\ c <> 9 /\ c <> 10 /\ c <> 13) (snd (k, v)).
Proof. intros P. split; [reflexivity|]. split; [apply plain_reads; exact P|]. eapply Forall_impl; [|exact P]. intros c; cbn beta; tauto. Qed.
Ltac lit := repeat constructor; discriminate.

Lemma document_content us version fname title rev ts c :
  Forall ids_safe us -> html_doc version fname title rev us = (ts, c) ->
  plain version -> plain fname -> plain title -> match rev with Some r => plain r | None => True end ->
  exists rest root, ts = TDoctype :: TNl :: rest /\ content rest [] [(root, [10])]
    /\ (forall x ks, content rest x ks -> x = [] /\ ks = [(root, [10])])
    /\ document_shows (emit_rules css_attrs (c_txt c)) (emit_rules fill_css (c_cell c)) version fname title rev us root.
Proof.
  intros PD H PV PF PT PR. unfold html_doc in H. destruct (render_all render_unit us no_caches) as [bt c1] eqn:R. injection H as <- <-.
  destruct (render_units_ok us (units_all us PD) _ _ _ R good_none) as (_ & _ & ks & CB & US).
  unfold html_head. cbn [app].
  match goal with |- exists rest root, TDoctype :: TNl :: ?r = _ /\ _ => exists r end.
  match goal with |- exists root, ?a /\ content ?r [] _ /\ _ => assert (C : exists root, content r [] [(root, [10])]
    /\ document_shows (emit_rules css_attrs (c_txt c1)) (emit_rules fill_css (c_cell c1)) version fname title rev us root) end.
  2:{ destruct C as (root & C & DS). exists root. split; [reflexivity|]. split; [exact C|]. split; [|exact DS].
      intros x k C'. destruct (content_det _ _ _ _ _ C C') as [<- <-]. auto. }
  clear PD. set (metas := [(utf8 "charset", utf8 "utf-8"); (utf8 "data-spec", title)] ++ match rev with Some r => [(utf8 "data-revision", r)] | None => [] end).
  assert (BODY : content (TOpen (utf8 "body") [] :: (TNl :: bt) ++ TClose (utf8 "body") :: TNl :: []) [] [(Elem (utf8 "body") [] [10] ks, [10])]).
  { apply content_elem_nl; [apply attrs_read_nil | apply ct_nl; exact CB | constructor]. }
  assert (ATT : attrs_read metas metas).
  { split.
    - unfold metas. constructor; [apply plain_attr; lit|]. constructor; [apply plain_attr; exact PT|].
      destruct rev; [|constructor]. constructor; [apply plain_attr; exact PR | constructor].
    - unfold metas. destruct rev; cbn [app map fst]; repeat (constructor; [intros X; repeat (destruct X as [X|X]; [discriminate X|]); exact X|]); constructor. }
  set (m2 := [(utf8 "name", utf8 "spexVersion"); (utf8 "content", version)]).
  assert (AT2 : attrs_read m2 m2).
  { split; [constructor; [apply plain_attr; lit|]; constructor; [apply plain_attr; exact PV | constructor]|].
    repeat (constructor; [intros X; repeat (destruct X as [X|X]; [discriminate X|]); exact X|]); constructor. }
  set (m3 := [(utf8 "rel", utf8 "stylesheet"); (utf8 "href", fname ++ utf8 ".css")]).
  assert (AT3 : attrs_read m3 m3).
  { split; [constructor; [apply plain_attr; lit|]; constructor; [apply plain_attr; apply plain_app; [exact PF | lit] | constructor]|].
    repeat (constructor; [intros X; repeat (destruct X as [X|X]; [discriminate X|]); exact X|]); constructor. }
  assert (HEADB : content (TNl :: TVoid (utf8 "meta") metas :: TNl :: TVoid (utf8 "meta") m2 :: TNl :: TOpen (utf8 "title") [] :: [TText fname] ++ TClose (utf8 "title") :: TNl
      :: TVoid (utf8 "link") m3 :: TNl :: []) [10]
      [(Elem (utf8 "meta") metas [] [], [10]); (Elem (utf8 "meta") m2 [] [], [10]); (Elem (utf8 "title") [] fname [], [10]); (Elem (utf8 "link") m3 [] [], [10])]).
  { apply ct_nl, ct_void; [exact ATT|]. apply ct_nl, ct_void; [exact AT2|]. apply ct_nl. apply content_elem_nl; [apply attrs_read_nil| |].
    - rewrite <- (app_nil_r fname) at 2. apply ct_text; [apply plain_reads; exact PF | constructor].
    - apply ct_void; [exact AT3|]. apply ct_nl. constructor. }
  pose proof (content_elem_nl (utf8 "head") [] [] _ _ _ _ _ _ attrs_read_nil HEADB BODY) as HEAD.
  assert (ATH : attrs_read [(utf8 "lang", utf8 "en")] [(utf8 "lang", utf8 "en")]).
  { split; [constructor; [apply plain_attr; lit | constructor]|]. repeat constructor. intros []. }
  pose proof (content_elem_nl (utf8 "html") _ _ _ _ _ _ _ _ ATH (ct_nl _ _ _ HEAD) ct_nil) as ROOT.
  eexists. split.
  - match type of ROOT with content ?a _ _ => match goal with |- content ?b _ _ => replace b with a end end; [exact ROOT|].
    unfold metas, m2, m3. cbn [app]. repeat rewrite <- app_assoc. cbn [app]. reflexivity.
  - do 9 eexists. exists ks. split; [reflexivity|]. split; [repeat constructor | exact US].
Qed.
(** The document written is well-formed if the title, the revision and the file name stand for
    themselves, and it shows the tables. *)
Theorem C66_document d us version fname title rev ts c :
  parse_docx d = DOk us -> html_doc version fname title rev us = (ts, c) ->
  plain version -> plain fname -> plain title -> match rev with Some r => plain r | None => True end ->
  exists rest root, ts = TDoctype :: TNl :: rest /\ content rest [] [(root, [10])]
    /\ (forall x ks, content rest x ks -> x = [] /\ ks = [(root, [10])])
    /\ document_shows (emit_rules css_attrs (c_txt c)) (emit_rules fill_css (c_cell c)) version fname title rev us root.
Proof. intros PD. apply document_content. exact (parse_docx_safe _ _ PD). Qed.
Print Assumptions C66_document.

(** Without that condition it need not be: a title with an ampersand. *)
Lemma content_void ts x ks : content ts x ks -> forall tag w, In (TVoid tag w) ts -> exists a, attrs_read w a.
Proof.
  induction 1 as [|s t ts x ks _ _ IH|ts x ks _ IH|tg w0 a rest x ks A _ IH|tg w0 a body bx bks rest x ks A _ IHb _ IHr]; intros tag w I.
  - destruct I.
  - destruct I as [X|I]; [discriminate | eauto].
  - destruct I as [X|I]; [discriminate | eauto].
  - destruct I as [X|I]; [injection X as <- <-; eauto | eauto].
  - destruct I as [X|I]; [discriminate|]. apply in_app_or in I as [I|[X|I]]; [eauto | discriminate | eauto].
Qed.
Theorem C66_any_refuted : exists h us version fname ts c,
  plain version /\ plain fname /\ html_doc version fname (header_title h) (header_revision h) us = (ts, c)
  /\ forall rest x ks, ts = TDoctype :: TNl :: rest -> ~ content rest x ks.
Proof.
  exists (utf8 "R&D Specification, Revision 1.0"), [], (utf8 "1.0"), (utf8 "spec"). do 2 eexists. split; [lit|]. split; [lit|].
  split; [reflexivity|]. intros rest x ks E C. injection E as <-.
  destruct (content_void _ _ _ C (utf8 "meta") [(utf8 "charset", utf8 "utf-8"); (utf8 "data-spec", utf8 "R&D Specification"); (utf8 "data-revision", utf8 "1.0")]) as (a & F & _).
  { vm_compute. do 4 right. left. reflexivity. }
  inversion F as [|? ? ? ? _ F2]; subst. inversion F2 as [|? ? ? ? (_ & R & _) _]; subst. cbn [snd] in R.
  remember (snd y0) as t eqn:T; clear T. revert R. change (utf8 "R&D Specification") with (82 :: 38 :: utf8 "D Specification"). intros R.
  inversion R as [|c s t' _ _ R2|n c s t' I R2 E]; subst.
  - inversion R2 as [|c s t'' NA _ _|n c s t'' I R3 E]; subst; [congruence|].
    repeat (destruct I as [I|I]; [injection I as <- <-; discriminate E|]). destruct I.
  - repeat (destruct I as [I|I]; [injection I as <- <-; discriminate E|]). destruct I.
Qed.
Print Assumptions C66_any_refuted.

(** ** C67 *)

Lemma parse_docx_tables d us : parse_docx d = DOk us -> Forall (fun u => exists w i rows, u = HTable w i rows) us.
Proof.
  unfold parse_docx. destruct (Docx.parse_tables _ _ []) as [[l s]| |] eqn:E; cbn [dbind]; try discriminate. intros [= <-]. revert E.
  generalize (@nil N) at 1. generalize (w_all "w:tbl" (dx_body d)) as tbls. intros tbls. revert l s. induction tbls as [|t tbls IH]; intros l s s0; cbn [Docx.parse_tables].
  - intros [= <- _]. constructor.
  - destruct (parse_table _ t s0) as [[u s1]| |] eqn:P; cbn [dbind]; try discriminate.
    destruct (Docx.parse_tables _ tbls s1) as [[us2 s2]| |] eqn:R; cbn [dbind]; try discriminate. intros [= <- _]. apply IH in R.
    destruct u as [u|]; [|exact R]. constructor; [|exact R]. unfold parse_table in P. destruct (mem_id _ _); [discriminate|].
    destruct (grid t); cbn [dbind] in P; try discriminate. destruct (parse_rows _ _ _) as [[rows s3]| |]; cbn [dbind] in P; try discriminate.
    injection P as <- _. eauto.
Qed.

(** The JSON stage reads back what the docx stage wrote: the title and the revision of the
    header, in lower case, and one figure for every top-level table; without a revision it
    raises. *)
Theorem C67_read_back tr cr d us version fname title rev root :
  parse_docx d = DOk us -> document_shows tr cr version fname title rev us root ->
  (forall r, rev = Some r -> open_doc (Tree root) = inr (root, lower title, lower r))
  /\ (rev = None -> open_doc (Tree root) = inl (PDoc ERuntime))
  /\ Forall2 (shows tr cr) us (figures root).
Proof.
  intros PD (xh & xb & x1 & t1 & t2 & t3 & t4 & t5 & t6 & ks & -> & _ & US).
  split; [intros r ->; reflexivity|]. split; [intros ->; reflexivity|].
  pose proof (parse_docx_tables _ _ PD) as T. unfold figures.
  assert (E : forall xh0 hd t5 t6, flat_map (children t_table) (children t_body (Elem (utf8 "html") xh0 xh [(Elem (utf8 "head") [] x1 hd, t5); (Elem (utf8 "body") [] xb ks, t6)]))
     = map fst (filter (fun k : kid => seqb (e_tag (fst k)) t_table) ks)) by (intros; cbn; rewrite app_nil_r; reflexivity).
  rewrite E. clear E PD. induction US as [|u us e tail ks S _ US IH]; [constructor|]. inversion T as [|? ? (w & i & rows & ->) T']; subst.
  inversion S; subst. cbn [filter fst e_tag]. change (seqb (utf8 "table") t_table) with true. cbn [map fst]. constructor; [exact S | apply IH; assumption].
Qed.
Print Assumptions C67_read_back.

(** A document with a table. *)
Definition tx_tbl : welem := lx_e "w:tbl" [] [lx_e "w:tr" [] [lx_e "w:tc" [] [lx_e "w:p" [] [tx_run "Figure 1: A & B"]]]].
Definition tx_doc : docx := mkDocx (lx_e "w:document" [] [lx_e "w:body" [] [tx_tbl]]) None (lx_e "w:styles" [] []).
Definition tx_header : str := utf8 "NVM Express Base Specification, Revision 2.0C".
Example C67_ex : exists root, open_doc (Tree root) = inr (root, utf8 "nvm express base specification", utf8 "2.0c")
  /\ List.length (figures root) = 1%nat
  /\ exists us c rest, parse_docx tx_doc = DOk us /\ content rest [] [(root, [10])]
       /\ html_doc (utf8 "1.0") (utf8 "spec") (header_title tx_header) (header_revision tx_header) us = (TDoctype :: TNl :: rest, c).
Proof.
  assert (exists us, parse_docx tx_doc = DOk us) as [us P] by (eexists; vm_compute; reflexivity).
  destruct (html_doc (utf8 "1.0") (utf8 "spec") (header_title tx_header) (header_revision tx_header) us) as [ts c] eqn:H.
  destruct (C66_document _ _ _ _ _ _ _ _ P H) as (rest & root & -> & C & _ & DS); [lit | lit | vm_compute; lit | vm_compute; lit|].
  destruct (C67_read_back _ _ _ _ _ _ _ _ _ P DS) as (A & _ & F). exists root. split; [rewrite (A (utf8 "2.0C") eq_refl); reflexivity|].
  split; [|exists us, c, rest; auto]. rewrite <- (Forall2_length _ _ _ F). revert P. vm_compute. intros [= <-]. reflexivity.
Qed.
