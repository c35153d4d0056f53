(** Reading back a rendered docx table: its cells tile it, so the row iterator restores them. *)
From Coq Require Import NArith ZArith List Bool String Lia Sorting.Sorted Sorting.Permutation.
From Coq Require Decimal DecimalN DecimalFacts.
From Verif Require Import PyStr PyStrFacts SpecText RangeProofs Xml RowIter Docx Render SpecFmt SpecGrid SpecRows SpecHtml Prop_Rows GridProofs HtmlProofs TableHtml TilingProofs.
Import ListNotations.
Local Open Scope list_scope.
Local Open Scope N_scope.

(** A number below 10^[L] has at most [L] digits. *)
Lemma lead_digit n : n <> 0 -> exists c s, str_of_N n = c :: s /\ 1 <= digit c.
Proof.
  intros NZ. unfold str_of_N. pose proof (DecimalN.Unsigned.to_of (N.to_uint n)) as E. rewrite DecimalN.Unsigned.of_to in E.
  destruct (N.to_uint n) as [|u|u|u|u|u|u|u|u|u|u] eqn:U; cbn [uint_str];
    try (do 2 eexists; split; [reflexivity|]; vm_compute; discriminate).
  - exfalso. apply NZ. rewrite <- (DecimalN.Unsigned.of_to n), U. reflexivity.
  - exfalso. rewrite DecimalFacts.unorm_D0 in E. destruct u eqn:V; [apply NZ; rewrite <- (DecimalN.Unsigned.of_to n), U; reflexivity|..];
      (rewrite <- V in E; assert (u <> Decimal.Nil) as X by (rewrite V; discriminate); apply DecimalFacts.nb_digits_unorm in X; rewrite <- E in X; cbn [Decimal.nb_digits] in X; lia).
Qed.
Lemma str_of_N_length n L : 1 <= L -> n < 10 ^ L -> N.of_nat (List.length (str_of_N n)) <= L.
Proof.
  intros L1 H. destruct (N.eq_dec n 0) as [->|NZ]; [exact L1|].
  destruct (lead_digit n NZ) as (c & s & E & D). pose proof (str_of_N_value n) as V. rewrite E in V. cbn [dec_value] in V. rewrite E. cbn [List.length].
  destruct (N.le_gt_cases L (N.of_nat (List.length s))) as [G|G]; [|lia].
  exfalso. pose proof (N.pow_le_mono_r 10 _ _ ltac:(lia) G).
  set (p := 10 ^ N.of_nat (List.length s)) in *. assert (1 * p <= digit c * p) by (apply N.mul_le_mono_r; exact D). lia.
Qed.
Lemma span_attr_written a e n B : (n <= B)%nat -> N.of_nat B < 10 ^ 4300 -> (1 <= n)%nat -> attr a e = span_written n -> span_attr a e = Some (Z.of_nat n).
Proof.
  intros LE LT P H. unfold span_attr. rewrite H. unfold span_written. destruct (Nat.ltb_spec 1 n).
  - rewrite py_int_numeral; [rewrite str_of_N_value; f_equal; lia | apply str_of_N_numeral |].
    unfold convertible. apply str_of_N_length; [discriminate|]. eapply N.le_lt_trans; [|exact LT]. lia.
  - f_equal. lia.
Qed.
Local Open Scope nat_scope.

(** ** Lists *)
Lemma NoDup_concat {A} (ls : list (list A)) : Forall (@NoDup A) ls ->
  (forall i j l l' a, nth_error ls i = Some l -> nth_error ls j = Some l' -> In a l -> In a l' -> i = j) -> NoDup (List.concat ls).
Proof.
  induction 1 as [|l ls N _ IH]; intros H; cbn [List.concat]; [constructor|].
  assert (ND : NoDup (List.concat ls)).
  { apply IH. intros i j l1 l2 a I J A1 A2. specialize (H (S i) (S j) l1 l2 a I J A1 A2). congruence. }
  clear IH. revert ND. assert (D : forall a, In a l -> ~ In a (List.concat ls)).
  { intros a I J. apply in_concat in J as (l' & J1 & J2). apply In_nth_error in J1 as (j & J1). specialize (H 0 (S j) l l' a eq_refl J1 I J2). discriminate. }
  clear H. induction N as [|a l NI N IH]; intros ND; [exact ND|]. cbn [app]. constructor.
  - rewrite in_app_iff. intros [I|I]; [contradiction | exact (D a (or_introl eq_refl) I)].
  - apply IH; [|exact ND]. intros b I. apply D. right. exact I.
Qed.
Lemma key_inj {A B} (f : A -> B) l a b : NoDup (map f l) -> In a l -> In b l -> f a = f b -> a = b.
Proof.
  induction l as [|c l IH]; intros N I J E; [destruct I|]. cbn [map] in N. inversion N as [|? ? NI N']; subst.
  destruct I as [<-|I], J as [<-|J]; [reflexivity | | | exact (IH N' I J E)]; exfalso; apply NI.
  - rewrite E. apply in_map. exact J.
  - rewrite <- E. apply in_map. exact I.
Qed.
Lemma filter_concat_one {A} (f : A -> bool) ls i l : nth_error ls i = Some l -> (forall a, In a l -> f a = true) ->
  (forall j l' a, nth_error ls j = Some l' -> In a l' -> f a = true -> j = i) -> filter f (List.concat ls) = l.
Proof.
  revert i. induction ls as [|l0 ls IH]; intros [|i] N T O; try discriminate; cbn [List.concat nth_error] in *.
  - injection N as ->. rewrite filter_app. replace (filter f l) with l.
    + replace (filter f (List.concat ls)) with (@nil A); [apply app_nil_r|]. symmetry.
      destruct (filter f (List.concat ls)) as [|a r] eqn:E; [reflexivity|]. exfalso.
      assert (In a (filter f (List.concat ls))) as X by (rewrite E; left; reflexivity). apply filter_In in X as [X1 X2].
      apply in_concat in X1 as (l' & X1 & X3). apply In_nth_error in X1 as (j & X1). specialize (O (S j) l' a X1 X3 X2). discriminate.
    + symmetry. clear - T. induction l as [|a l IH]; [reflexivity|]. cbn [filter]. rewrite (T a (or_introl eq_refl)). f_equal. apply IH. intros b I. apply T. right. exact I.
  - rewrite filter_app. replace (filter f l0) with (@nil A).
    + cbn [app]. apply (IH i N T). intros j l' a J I F. specialize (O (S j) l' a J I F). congruence.
    + destruct (filter f l0) as [|a r] eqn:E; [reflexivity|]. exfalso.
      assert (In a (filter f l0)) as X by (rewrite E; left; reflexivity). apply filter_In in X as [X1 X2]. specialize (O 0 l0 a eq_refl X1 X2). discriminate.
Qed.
Lemma Forall2_keys {A B K} (f : A -> K) (g : B -> K) (R : A -> B -> Prop) l l' : map f l = map g l' ->
  (forall a b, In a l -> In b l' -> f a = g b -> R a b) -> Forall2 R l l'.
Proof.
  revert l'. induction l as [|a l IH]; intros [|b l'] E H; try discriminate; constructor.
  - injection E as E _. apply H; [left; reflexivity | left; reflexivity | exact E].
  - injection E as _ E. apply (IH l' E). intros x y X Y. apply H; right; assumption.
Qed.
Lemma strict_cols (l : list cell) : sorted l -> NoDup l -> (forall p q, In p l -> In q l -> c_col p = c_col q -> p = q) -> StronglySorted Z.lt (map c_col l).
Proof.
  unfold sorted. induction 1 as [|a l S IH F]; intros N U; cbn [map]; [constructor|]. inversion N as [|? ? NI N']; subst. constructor.
  - apply IH; [exact N'|]. intros p q P Q. apply U; right; assumption.
  - apply Forall_forall. intros z Z. apply in_map_iff in Z as (q & <- & Q). rewrite Forall_forall in F. specialize (F q Q). cbn in F.
    destruct (Z.eq_dec (c_col a) (c_col q)) as [E|E]; [|lia]. exfalso. apply NI. rewrite (U a q (or_introl eq_refl) (or_intror Q) E). exact Q.
Qed.

(** The [i]-th of the elements passing a filter. *)
Definition dix {A} (f : A -> bool) (l : list A) (r : nat) : nat := List.length (filter f (firstn r l)).
Lemma firstn_snoc {A} (l : list A) r a : nth_error l r = Some a -> firstn (S r) l = firstn r l ++ [a].
Proof.
  revert r. induction l as [|b l IH]; intros [|r] H; try discriminate; cbn [nth_error] in H.
  - injection H as ->. reflexivity.
  - cbn [firstn app]. f_equal. apply IH. exact H.
Qed.
Lemma dix_S {A} (f : A -> bool) l r a : nth_error l r = Some a -> dix f l (S r) = (if f a then 1 else 0) + dix f l r.
Proof. intros H. unfold dix. rewrite (firstn_snoc _ _ _ H), filter_app, app_length. cbn [filter]. destruct (f a); cbn [List.length]; lia. Qed.
Lemma dix_le {A} (f : A -> bool) l r r' : r <= r' -> r' <= List.length l -> dix f l r <= dix f l r'.
Proof.
  induction 1 as [|r' LE IH]; intros L; [lia|]. destruct (nth_error l r') as [a|] eqn:E; [|apply nth_error_None in E; lia].
  rewrite (dix_S _ _ _ _ E). specialize (IH ltac:(lia)). lia.
Qed.
Lemma dix_lt {A} (f : A -> bool) l r r' a : nth_error l r = Some a -> f a = true -> r < r' -> r' <= List.length l -> dix f l r < dix f l r'.
Proof.
  intros E F LT L. pose proof (dix_le f l (S r) r' LT L). rewrite (dix_S _ _ _ _ E), F in H. lia.
Qed.
Lemma dix_inj {A} (f : A -> bool) l r r' a a' : nth_error l r = Some a -> f a = true -> nth_error l r' = Some a' -> f a' = true -> dix f l r = dix f l r' -> r = r'.
Proof.
  intros E F E' F' D. assert (r < List.length l) by (apply nth_error_Some; congruence). assert (r' < List.length l) by (apply nth_error_Some; congruence).
  destruct (Nat.lt_trichotomy r r') as [X|[X|X]]; [|exact X|].
  - pose proof (dix_lt f l r r' a E F X ltac:(lia)). lia.
  - pose proof (dix_lt f l r' r a' E' F' X ltac:(lia)). lia.
Qed.
Lemma dix_total {A} (f : A -> bool) l r a : nth_error l r = Some a -> f a = true -> dix f l r < List.length (filter f l).
Proof.
  intros E F. assert (L : r < List.length l) by (apply nth_error_Some; congruence). pose proof (dix_lt f l r _ a E F L ltac:(lia)) as D.
  unfold dix in D at 2. rewrite firstn_all in D. exact D.
Qed.
Lemma dix_nth {A} (f : A -> bool) l : forall i a, nth_error (filter f l) i = Some a -> exists r, nth_error l r = Some a /\ f a = true /\ dix f l r = i.
Proof.
  induction l as [|b l IH]; intros i a H; [destruct i; discriminate|]. cbn [filter] in H. destruct (f b) eqn:B.
  - destruct i as [|i]; cbn [nth_error] in H.
    + injection H as ->. exists 0. split; [reflexivity|]. split; [exact B | reflexivity].
    + destruct (IH i a H) as (r & E & F & D). exists (S r). split; [exact E|]. split; [exact F|]. unfold dix in *. cbn [firstn filter]. rewrite B. cbn [List.length]. congruence.
  - destruct (IH i a H) as (r & E & F & D). exists (S r). split; [exact E|]. split; [exact F|]. unfold dix in *. cbn [firstn filter]. rewrite B. exact D.
Qed.
Lemma dix_ex {A} (f : A -> bool) l i : i < List.length (filter f l) -> exists r a, nth_error l r = Some a /\ f a = true /\ dix f l r = i.
Proof.
  intros L. destruct (nth_error (filter f l) i) as [a|] eqn:E; [|apply nth_error_None in E; lia]. destruct (dix_nth f l i a E) as (r & X). exists r, a. exact X.
Qed.
Lemma dix_run {A} (f : A -> bool) l r n : (forall k, k < n -> exists a, nth_error l (r + k) = Some a /\ f a = true) -> forall k, k <= n -> dix f l (r + k) = dix f l r + k.
Proof.
  intros H. induction k as [|k IH]; intros K; [rewrite !Nat.add_0_r; reflexivity|].
  destruct (H k ltac:(lia)) as (a & E & F). replace (r + S k) with (S (r + k)) by lia. rewrite (dix_S _ _ _ _ E), F, IH by lia. lia.
Qed.
Lemma dix_map {A B} (f : A -> bool) (g : B -> bool) l l' r : Forall2 (fun a b => f a = g b) l l' -> dix f l r = dix g l' r.
Proof.
  unfold dix. intros F. revert r. induction F as [|a b l l' E _ IH]; intros [|r]; try reflexivity. cbn [firstn filter]. rewrite E. destruct (g b); cbn [List.length]; rewrite IH; reflexivity.
Qed.

Lemma Forall2_nth {A B} (R : A -> B -> Prop) l l' : List.length l = List.length l' ->
  (forall i a b, nth_error l i = Some a -> nth_error l' i = Some b -> R a b) -> Forall2 R l l'.
Proof.
  revert l'. induction l as [|a l IH]; intros [|b l'] L H; try discriminate; constructor.
  - exact (H 0 a b eq_refl eq_refl).
  - apply IH; [cbn in L; lia|]. intros i. exact (H (S i)).
Qed.
Lemma tag_cases tc : cell_tag tc = t_th \/ cell_tag tc = t_td.
Proof. unfold cell_tag. destruct (cell_fill tc); [destruct (_ && _)|]; auto. Qed.
Lemma th_td : seqb t_th t_td = false. Proof. reflexivity. Qed.
Lemma td_th : seqb t_td t_th = false. Proof. reflexivity. Qed.

(** ** The table *)

Definition hdr (row : list wcell) : bool := existsb (fun p => seqb (cell_tag (wc_tc (snd p))) t_th) (own_cells row).
Definition data (row : list wcell) : bool := negb (hdr row).
Lemma hdr_iff row : hdr row = true <-> header_row row.
Proof.
  unfold hdr, header_row. rewrite existsb_exists. split; intros (p & I & H); exists p; (split; [exact I|]); [apply seqb_eq in H; exact H|]. apply seqb_eq. exact H.
Qed.
Lemma data_iff row : data row = true <-> ~ header_row row.
Proof. rewrite <- hdr_iff. unfold data. destruct (hdr row); cbn; split; congruence. Qed.

(** Behind a name, so that lia does not compute the power. *)
Definition few (n : nat) : Prop := (N.of_nat n < 10 ^ 4300)%N.

Section Restore.
Variables (tr cr : list (str * list (str * str))) (pa : list welem -> seen -> dres (list hunit * seen)).
Variables (tbl : welem) (rows : list (list wcell)) (s : seen) (u : hunit) (s' : seen) (e : elem) (W : nat).
Hypothesis LY : layout tbl rows.
Hypothesis AL : aligned rows.
Hypothesis PT : parse_table pa tbl s = DOk (Some u, s').
Hypothesis SW : shows tr cr u e.
Hypothesis NE : forall row, In row rows -> own_cells row <> [].
Hypothesis WD : forall row, In row rows -> ~ header_row row -> list_sum (map wc_span row) = W.
Hypothesis SEP : separate rows.
Hypothesis SR : few (List.length rows).
Hypothesis SC : few W.

Notation cshown := (cell_shown tr cr pa rows).
Let D := dix data rows.

Lemma kid_at r row : nth_error rows r = Some row -> exists x ks tail, nth_error (e_kids e) r = Some (Elem t_tr [] x ks, tail) /\ Forall2 (cshown r) (own_cells row) ks.
Proof.
  intros R. destruct (table_cells _ _ _ _ _ _ _ _ _ LY AL PT SW) as (_ & _ & N). destruct (N r row R) as (x & ks & tail & K & _ & _ & F). exists x, ks, tail. split; [exact K | exact F].
Qed.
Lemma kids_len : List.length (e_kids e) = List.length rows.
Proof. exact (proj1 (proj2 (table_cells _ _ _ _ _ _ _ _ _ LY AL PT SW))). Qed.
Lemma row_at r k : nth_error (e_kids e) r = Some k -> exists row, nth_error rows r = Some row.
Proof.
  intros K. destruct (nth_error rows r) as [row|] eqn:R; [eauto|]. apply nth_error_None in R. rewrite <- kids_len in R. apply nth_error_None in R. congruence.
Qed.
Lemma trs_eq : children t_tr e = map fst (e_kids e).
Proof.
  unfold children, kids_of. f_equal. assert (A : Forall (fun k : kid => e_tag (fst k) = t_tr) (e_kids e)).
  { apply Forall_forall. intros k I. apply In_nth_error in I as (r & K). destruct (row_at r k K) as (row & R). destruct (kid_at r row R) as (x & ks & tail & K' & _). pose proof (eq_trans (eq_sym K) K') as KK; injection KK as ->. reflexivity. }
  clear - A. induction A as [|k ks E _ IH]; [reflexivity|]. cbn [filter]. rewrite E, seqb_refl. f_equal. exact IH.
Qed.

Lemma shown_tag r p k : cshown r p k -> e_tag (fst k) = cell_tag (wc_tc (snd p)).
Proof. intros (a & ks & tail & n & us & s1 & s2 & -> & _). reflexivity. Qed.
Lemma tags_of r own ks : Forall2 (cshown r) own ks -> map (fun k : kid => e_tag (fst k)) ks = map (fun p => cell_tag (wc_tc (snd p))) own.
Proof. induction 1 as [|p k own ks H _ IH]; [reflexivity|]. cbn [map]. rewrite IH, (shown_tag _ _ _ H). reflexivity. Qed.

Lemma nh_row r row x ks : Forall2 (cshown r) (own_cells row) ks -> no_header (Elem t_tr [] x ks) = data row.
Proof.
  intros F. unfold no_header, data, hdr, children, kids_of. cbn [e_kids]. set (own := own_cells row) in *. clearbody own.
  induction F as [|p k own ks H _ IH]; [reflexivity|]. cbn [filter existsb]. rewrite (shown_tag _ _ _ H).
  destruct (seqb (cell_tag (wc_tc (snd p))) t_th); cbn [map orb negb]; [reflexivity | exact IH].
Qed.
Lemma td_row r row x ks : Forall2 (cshown r) (own_cells row) ks -> data row = true -> kids_of t_td (Elem t_tr [] x ks) = ks.
Proof.
  intros F DT. unfold data, hdr in DT. unfold kids_of. cbn [e_kids]. set (own := own_cells row) in *. clearbody own.
  induction F as [|p k own ks H _ IH]; [reflexivity|]. cbn [filter existsb] in *. rewrite (shown_tag _ _ _ H).
  destruct (tag_cases (wc_tc (snd p))) as [E|E]; rewrite E in *; [discriminate DT|]. rewrite seqb_refl. f_equal. apply IH. exact DT.
Qed.
Lemma cell_row r row x ks : Forall2 (cshown r) (own_cells row) ks -> In row rows -> has_cell (Elem t_tr [] x ks) = true.
Proof.
  intros F I. pose proof (NE row I) as N. destruct F as [|p k own ks H _]; [congruence|]. unfold has_cell, children, kids_of. cbn [e_kids filter]. rewrite (shown_tag _ _ _ H).
  destruct (tag_cases (wc_tc (snd p))) as [E|E]; rewrite E.
  - rewrite th_td, seqb_refl. cbn [map]. destruct (map fst _); reflexivity.
  - rewrite seqb_refl. reflexivity.
Qed.
Lemma dix_trs r : dix no_header (children t_tr e) r = D r.
Proof.
  unfold D. apply dix_map. rewrite trs_eq. apply Forall2_nth; [rewrite map_length; exact kids_len|].
  intros i a row K R. rewrite nth_error_map in K. destruct (kid_at i row R) as (x & ks & tail & K' & F). rewrite K' in K. injection K as <-. exact (nh_row _ _ _ _ F).
Qed.

(** ** The cells *)
Definition mk_rel (r : nat) (p : nat * wcell) (c : cell) : Prop :=
  c_row c = Z.of_nat (D r) /\ c_col c = Z.of_nat (fst p) /\ c_w c = Z.of_nat (wc_span (snd p))
  /\ (exists n, c_h c = Z.of_nat n /\ height rows r (fst p) n /\ attr a_rowspan (fst (c_td c)) = span_written n)
  /\ cshown r p (c_td c).
Lemma row_cells r own ks : Forall2 (cshown r) own ks -> exists cl, Forall2 (mk_rel r) own cl /\ ks = map c_td cl.
Proof.
  induction 1 as [|p k own ks H _ (cl & F & ->)]; [exists []; split; [constructor | reflexivity]|].
  pose proof H as (a & ks' & tail & n & us & s1 & s2 & K & _ & _ & HT & RA & _).
  exists (mkCell (Z.of_nat (D r)) (Z.of_nat (fst p)) (Z.of_nat n) (Z.of_nat (wc_span (snd p))) k :: cl). split; [|reflexivity].
  constructor; [|exact F]. repeat split; [|exact H]. exists n. split; [reflexivity|]. split; [exact HT | exact RA].
Qed.

Definition row_spec (r : nat) (cl : list cell) : Prop :=
  exists row x ks tail, nth_error rows r = Some row /\ nth_error (e_kids e) r = Some (Elem t_tr [] x ks, tail) /\ Forall2 (cshown r) (own_cells row) ks
    /\ if data row then Forall2 (mk_rel r) (own_cells row) cl /\ ks = map c_td cl else cl = [].
Lemma cells_ex : exists CL, List.length CL = List.length rows /\ forall r cl, nth_error CL r = Some cl -> row_spec r cl.
Proof.
  destruct (fin_choice row_spec (List.length rows) 0) as (CL & L & Q); [|exists CL; split; [exact L | exact Q]].
  intros r R. destruct (nth_error rows r) as [row|] eqn:E; [|apply nth_error_None in E; lia].
  destruct (kid_at r row E) as (x & ks & tail & K & F). destruct (data row) eqn:DT.
  - destruct (row_cells _ _ _ F) as (cl & F2 & ->). exists cl, row, x, (map c_td cl), tail. rewrite DT. auto.
  - exists [], row, x, ks, tail. rewrite DT. auto.
Qed.

Section Cells.
Variable CL : list (list cell).
Hypothesis CLL : List.length CL = List.length rows.
Hypothesis CLS : forall r cl, nth_error CL r = Some cl -> row_spec r cl.
Definition cs := by_col (List.concat CL).

Definition is_cell (p : cell) (r x : nat) (c : wcell) (n : nat) : Prop :=
  exists row cl, nth_error rows r = Some row /\ data row = true /\ nth_error CL r = Some cl /\ In p cl /\ In (x, c) (own_cells row)
    /\ c_row p = Z.of_nat (D r) /\ c_col p = Z.of_nat x /\ c_w p = Z.of_nat (wc_span c) /\ c_h p = Z.of_nat n /\ height rows r x n
    /\ attr a_rowspan (fst (c_td p)) = span_written n /\ cshown r (x, c) (c_td p).

Lemma Forall2_in_l {A B} (R : A -> B -> Prop) l l' a : Forall2 R l l' -> In a l -> exists b, In b l' /\ R a b.
Proof. induction 1 as [|x y l l' H _ IH]; intros []; [subst; exists y; split; [left; reflexivity | exact H]|]. destruct (IH H0) as (b & I & X). exists b. split; [right; exact I | exact X]. Qed.
Lemma Forall2_in_r {A B} (R : A -> B -> Prop) l l' b : Forall2 R l l' -> In b l' -> exists a, In a l /\ R a b.
Proof. induction 1 as [|x y l l' H _ IH]; intros []; [subst; exists x; split; [left; reflexivity | exact H]|]. destruct (IH H0) as (a & I & X). exists a. split; [right; exact I | exact X]. Qed.

Lemma in_row r cl p : nth_error CL r = Some cl -> In p cl -> exists x c n, is_cell p r x c n.
Proof.
  intros C I. destruct (CLS r cl C) as (row & x & ks & tail & R & K & F & S). destruct (data row) eqn:DT; [|subst cl; destruct I].
  destruct S as (F2 & _). destruct (Forall2_in_r _ _ _ _ F2 I) as ([y c] & I2 & (M1 & M2 & M3 & (n & M4 & M5 & M6) & M7)). exists y, c, n.
  exists row, cl. cbn [fst snd] in *. auto 15.
Qed.
Lemma in_cs p : In p cs <-> exists r x c n, is_cell p r x c n.
Proof.
  unfold cs. split.
  - intros I. apply (Permutation_in _ (by_col_perm _)) in I. apply in_concat in I as (cl & C & I). apply In_nth_error in C as (r & C). exists r. exact (in_row r cl p C I).
  - intros (r & x & c & n & row & cl & _ & _ & C & I & _). apply (Permutation_in _ (Permutation_sym (by_col_perm _))). apply in_concat. exists cl. split; [eapply nth_error_In; exact C | exact I].
Qed.
Lemma is_own p r x c n : is_cell p r x c n -> own rows r x c.
Proof. intros (row & cl & R & _ & _ & _ & O & _). apply own_begins in O. exists row. split; [exact R | exact O]. Qed.
Lemma cell_ex r row x c n : nth_error rows r = Some row -> data row = true -> own rows r x c -> height rows r x n -> exists p, is_cell p r x c n.
Proof.
  intros R DT (row' & R' & B & NC) H. rewrite R in R'. injection R' as <-.
  assert (exists cl, nth_error CL r = Some cl) as (cl & C).
  { destruct (nth_error CL r) as [cl|] eqn:E; [eauto|]. apply nth_error_None in E. rewrite CLL in E. apply nth_error_None in E. congruence. }
  destruct (CLS r cl C) as (row' & y & ks & tail & R' & K & F & S). rewrite R in R'. injection R' as <-. rewrite DT in S. destruct S as (F2 & _).
  assert (O : In (x, c) (own_cells row)) by (apply own_begins; auto).
  destruct (Forall2_in_l _ _ _ _ F2 O) as (p & I & (M1 & M2 & M3 & (n' & M4 & M5 & M6) & M7)). cbn [fst snd] in *.
  rewrite (height_det _ _ _ _ _ M5 H) in *. exists p, row, cl. auto 15.
Qed.
Lemma row_cols r row cl : nth_error rows r = Some row -> data row = true -> nth_error CL r = Some cl -> map c_col cl = map (fun p => Z.of_nat (fst p)) (own_cells row).
Proof.
  intros R DT C. destruct (CLS r cl C) as (row' & y & ks & tail & R' & K & F & S). rewrite R in R'. injection R' as <-. rewrite DT in S. destruct S as (F2 & _).
  clear - F2. induction F2 as [|p c own cl (_ & M & _) _ IH]; [reflexivity|]. cbn [map]. rewrite IH, M. reflexivity.
Qed.
Lemma row_pos' r row : nth_error rows r = Some row -> Forall (fun c => 1 <= wc_span c) row.
Proof. intros R. pose proof (layout_pos _ _ LY) as P. rewrite Forall_forall in P. apply P. eapply nth_error_In. exact R. Qed.
Lemma row_cols_strict r row cl : nth_error rows r = Some row -> data row = true -> nth_error CL r = Some cl -> StronglySorted Z.lt (map c_col cl).
Proof.
  intros R DT C. rewrite (row_cols _ _ _ R DT C). pose proof (own_sorted row (row_pos' _ _ R)) as S. clear - S.
  induction S as [|p l S IH F]; cbn [map]; [constructor|]. constructor; [exact IH|]. apply Forall_forall. intros z Z. apply in_map_iff in Z as (q & <- & Q).
  rewrite Forall_forall in F. specialize (F q Q). cbn in F. lia.
Qed.
Lemma strict_nodup (l : list Z) : StronglySorted Z.lt l -> NoDup l.
Proof. induction 1 as [|a l S IH F]; constructor; [|exact IH]. intros I. rewrite Forall_forall in F. specialize (F a I). lia. Qed.
Lemma strict_sorted (l : list cell) : StronglySorted Z.lt (map c_col l) -> sorted l.
Proof.
  unfold sorted. induction l as [|a l IH]; intros S; [constructor|]. cbn [map] in S. inversion S as [|? ? S' F]; subst. constructor; [exact (IH S')|].
  apply Forall_forall. intros q Q. rewrite Forall_forall in F. specialize (F (c_col q) (in_map c_col l q Q)). lia.
Qed.
Lemma cell_uniq p q r x c n c' n' : is_cell p r x c n -> is_cell q r x c' n' -> p = q.
Proof.
  intros (row & cl & R & DT & C & I & _ & _ & X & _) (row' & cl' & R' & _ & C' & I' & _ & _ & X' & _).
  rewrite C in C'. injection C' as <-. apply (key_inj c_col cl p q); [|exact I | exact I' | congruence].
  apply strict_nodup. exact (row_cols_strict _ _ _ R DT C).
Qed.
Lemma is_run p r x c n : is_cell p r x c n -> forall k, k < n -> exists row, nth_error rows (r + k) = Some row /\ data row = true.
Proof.
  intros (row & cl & R & DT & C & I & _ & _ & _ & _ & _ & (H1 & H2 & _) & _) k K.
  destruct k as [|k]; [exists row; rewrite Nat.add_0_r; auto|].
  pose proof (H2 (S k) ltac:(lia)) as CT. replace (r + S k) with (S (r + k)) in CT by lia. destruct (SEP _ _ CT) as (_ & SP).
  destruct CT as (row' & c' & R' & _). exists row'. replace (r + S k) with (S (r + k)) by lia. split; [exact R'|]. apply data_iff. exact (SP row' R').
Qed.
Lemma is_height p r x c n : is_cell p r x c n -> 1 <= n /\ n <= List.length rows.
Proof.
  intros H. pose proof H as (row & cl & R & DT & C & I & _ & _ & _ & _ & _ & (H1 & _) & _). split; [exact H1|].
  destruct (is_run _ _ _ _ _ H (n - 1) ltac:(lia)) as (row' & R' & _). assert (r + (n - 1) < List.length rows) by (apply nth_error_Some; congruence). lia.
Qed.
Lemma is_cover p r x c n r' row' : is_cell p r x c n -> nth_error rows r' = Some row' -> data row' = true ->
  (covers_row (Z.of_nat (D r')) p = true <-> r <= r' < r + n).
Proof.
  intros H R' DT'. pose proof (dix_run data rows r n (is_run _ _ _ _ _ H)) as RUN. fold D in RUN.
  pose proof (is_height _ _ _ _ _ H) as HN. destruct H as (row & cl & R & DT & C & I & _ & E1 & _ & _ & E4 & _ & _ & _).
  unfold covers_row. rewrite E1, E4. rewrite andb_true_iff, Z.leb_le, Z.ltb_lt.
  assert (L' : r' < List.length rows) by (apply nth_error_Some; congruence).
  split.
  - intros [A B]. assert (r <= r').
    { destruct (Nat.le_gt_cases r r') as [|G]; [assumption|]. assert (r < List.length rows) by (apply nth_error_Some; congruence).
      pose proof (dix_lt data rows r' r row' R' DT' G ltac:(lia)). fold (D r) in *; fold (D r') in *. lia. }
    split; [assumption|]. destruct (Nat.le_gt_cases (r + n) r') as [G|]; [|assumption].
    pose proof (dix_le data rows (r + n) r' G ltac:(lia)) as X. fold (D (r + n)) in X. fold (D r') in X. rewrite (RUN n ltac:(lia)) in X. lia.
  - intros [A B]. replace r' with (r + (r' - r)) by lia. rewrite (RUN (r' - r)) by lia. lia.
Qed.

Lemma nodup_cs : NoDup cs.
Proof.
  unfold cs. eapply Permutation_NoDup; [symmetry; apply by_col_perm|]. apply NoDup_concat.
  - apply Forall_forall. intros cl C. apply In_nth_error in C as (r & C). destruct (CLS r cl C) as (row & x & ks & tail & R & K & F & S).
    destruct (data row) eqn:DT; [|subst; constructor]. apply (NoDup_map_inv c_col). apply strict_nodup. exact (row_cols_strict _ _ _ R DT C).
  - intros i j l l' p I J A B. destruct (in_row _ _ _ I A) as (x & c & n & (row & cl & R & DT & _ & _ & _ & E & _)). destruct (in_row _ _ _ J B) as (x' & c' & n' & (row' & cl' & R' & DT' & _ & _ & _ & E' & _)).
    apply (dix_inj data rows i j row row' R DT R' DT'). fold D. lia.
Qed.
Lemma data_width r row : nth_error rows r = Some row -> data row = true -> spans row = W.
Proof. intros R DT. apply WD; [eapply nth_error_In; exact R | apply data_iff; exact DT]. Qed.

(** At every position of a data row there is exactly one cell. *)
Lemma pos_cell r row z : nth_error rows r = Some row -> data row = true -> z < W ->
  exists p r0 x0 c0 n, is_cell p r0 x0 c0 n /\ r0 <= r < r0 + n /\ x0 <= z < x0 + wc_span c0.
Proof.
  intros R DT Z. destruct (tile_cover tbl rows LY AL r row z R) as (r0 & x0 & c0 & n & O & H & A & X); [rewrite (data_width _ _ R DT); exact Z|].
  assert (exists row0, nth_error rows r0 = Some row0 /\ data row0 = true) as (row0 & R0 & D0).
  { pose proof O as (row0 & R0 & _). exists row0. split; [exact R0|]. destruct (Nat.eq_dec r0 r) as [->|NEQ]; [congruence|].
    destruct H as (_ & H & _). pose proof (H 1 ltac:(lia)) as CT. replace (r0 + 1) with (S r0) in CT by lia. destruct (SEP _ _ CT) as (SP0 & _). apply data_iff. exact (SP0 row0 R0). }
  destruct (cell_ex r0 row0 x0 c0 n R0 D0 O H) as (p & P). exists p, r0, x0, c0, n. auto.
Qed.
Lemma pos_uniq r z p r1 x1 c1 n1 q r2 x2 c2 n2 : is_cell p r1 x1 c1 n1 -> is_cell q r2 x2 c2 n2 ->
  r1 <= r < r1 + n1 -> x1 <= z < x1 + wc_span c1 -> r2 <= r < r2 + n2 -> x2 <= z < x2 + wc_span c2 -> p = q.
Proof.
  intros P Q A1 B1 A2 B2.
  assert (HP : height rows r1 x1 n1) by (destruct P as (? & ? & _ & _ & _ & _ & _ & _ & _ & _ & _ & H & _); exact H).
  assert (HQ : height rows r2 x2 n2) by (destruct Q as (? & ? & _ & _ & _ & _ & _ & _ & _ & _ & _ & H & _); exact H).
  destruct (tile_unique tbl rows LY AL r z _ _ _ _ _ _ _ _ (is_own _ _ _ _ _ P) HP (is_own _ _ _ _ _ Q) HQ A1 B1 A2 B2) as [-> ->].
  exact (cell_uniq _ _ _ _ _ _ _ _ P Q).
Qed.
Lemma covers_iff p r0 x0 c0 n r row z : is_cell p r0 x0 c0 n -> nth_error rows r = Some row -> data row = true ->
  (covers_pos (Z.of_nat (D r)) (Z.of_nat z) p = true <-> r0 <= r < r0 + n /\ x0 <= z < x0 + wc_span c0).
Proof.
  intros P R DT. pose proof (is_cover _ _ _ _ _ _ _ P R DT) as CV. destruct P as (? & ? & _ & _ & _ & _ & _ & _ & X & Wd & _).
  unfold covers_pos. rewrite !andb_true_iff, CV, Z.leb_le, Z.ltb_lt, X, Wd. lia.
Qed.

Lemma cs_tiling : tiling (Z.of_nat (List.length (filter data rows))) (Z.of_nat W) cs.
Proof.
  split; [|split; [|apply by_col_sorted]].
  - intros p P. apply in_cs in P as (r & x & c & n & P). pose proof (is_height _ _ _ _ _ P) as HN. pose proof (is_own _ _ _ _ _ P) as (row' & R' & B & _).
    destruct P as (row & cl & R & DT & _ & _ & _ & E1 & E2 & E3 & E4 & _). rewrite R in R'. injection R' as <-.
    pose proof (dix_total data rows r row R DT). fold (D r) in H. pose proof (begins_end _ _ _ B) as BE. rewrite (data_width _ _ R DT) in BE.
    pose proof (row_pos rows (layout_pos _ _ LY) r row x c R B). lia.
  - intros i z I Z. destruct (dix_ex data rows (Z.to_nat i) ltac:(lia)) as (r & row & R & DT & E). fold (D r) in E.
    destruct (pos_cell r row (Z.to_nat z) R DT ltac:(lia)) as (p & r0 & x0 & c0 & n & P & A & X).
    exists p. replace i with (Z.of_nat (D r)) by lia. replace z with (Z.of_nat (Z.to_nat z)) by lia. apply filter_one.
    + exact nodup_cs.
    + apply in_cs. eauto.
    + apply (covers_iff _ _ _ _ _ _ _ _ P R DT). auto.
    + intros q Q CV. apply in_cs in Q as (r2 & x2 & c2 & n2 & Q). apply (covers_iff _ _ _ _ _ _ _ _ Q R DT) in CV as [A2 X2].
      exact (pos_uniq r (Z.to_nat z) _ _ _ _ _ _ _ _ _ _ Q P A2 X2 A X).
Qed.
Lemma cs_attributes p : In p cs -> attributes_agree p.
Proof.
  intros P. apply in_cs in P as (r & x & c & n & P). pose proof (is_height _ _ _ _ _ P) as HN. pose proof (is_own _ _ _ _ _ P) as (row' & R' & B & _).
  destruct P as (row & cl & R & DT & _ & _ & _ & E1 & E2 & E3 & E4 & _ & RA & (a & ks & tail & m & us & s1 & s2 & K & _ & CA & _)). rewrite R in R'. injection R' as <-.
  pose proof (begins_end _ _ _ B) as BE. rewrite (data_width _ _ R DT) in BE. pose proof (row_pos rows (layout_pos _ _ LY) r row x c R B).
  split; [rewrite E4; apply (span_attr_written _ _ _ (List.length rows)); [lia | exact SR | lia | exact RA]|].
  rewrite E3. apply (span_attr_written _ _ _ W); [lia | exact SC | lia | exact CA].
Qed.
Lemma cs_writes : writes (filter no_header (children t_tr e)) cs.
Proof.
  intros i t T. destruct (dix_nth no_header _ _ _ T) as (r & T' & NH & E). rewrite dix_trs in E. subst i.
  rewrite trs_eq, nth_error_map in T'. destruct (nth_error (e_kids e) r) as [k|] eqn:K; [|discriminate]. cbn in T'. injection T' as <-.
  destruct (row_at r k K) as (row & R).
  assert (exists cl, nth_error CL r = Some cl) as (cl & C).
  { destruct (nth_error CL r) as [cl|] eqn:E; [eauto|]. apply nth_error_None in E. rewrite CLL in E. apply nth_error_None in E. congruence. }
  destruct (CLS r cl C) as (row' & x & ks & tail & R' & K' & F & S). rewrite R in R'. injection R' as <-. pose proof (eq_trans (eq_sym K) K') as KK; injection KK as ->. cbn [fst] in *.
  rewrite (nh_row _ _ _ _ F) in NH. rewrite NH in S. destruct S as (F2 & ->). rewrite (td_row _ _ _ _ F NH).
  split; [|split].
  - pose proof (nh_row _ _ x _ F) as N. rewrite NH in N. unfold no_header in N. destruct (children t_th _); [reflexivity | discriminate].
  - f_equal. unfold cs. rewrite filter_by_col, (filter_concat_one _ CL r cl C).
    + symmetry. apply by_col_id. apply strict_sorted. exact (row_cols_strict _ _ _ R NH C).
    + intros p I. destruct (in_row _ _ _ C I) as (? & ? & ? & (? & ? & _ & _ & _ & _ & _ & E & _)). unfold starts_in. lia.
    + intros j cl' p C' I ST. destruct (in_row _ _ _ C' I) as (? & ? & ? & (row' & ? & R' & DT' & _ & _ & _ & E & _)). unfold starts_in in ST.
      apply (dix_inj data rows j r row' row R' DT' R NH). fold D. lia.
  - intros N. pose proof (NE row (nth_error_In _ _ R)) as NE'. destruct F2 as [|p c own cl' M _]; [congruence | discriminate N].
Qed.

Lemma row_restored r row : nth_error rows r = Some row -> data row = true ->
  Forall2 (cell_restored tr cr pa rows e r) (placed 0 row) (map (shown (Z.of_nat (D r))) (filter (covers_row (Z.of_nat (D r))) cs)).
Proof.
  intros R DT. set (f := filter (covers_row (Z.of_nat (D r))) cs).
  assert (UN : forall p q, In p f -> In q f -> c_col p = c_col q -> p = q).
  { intros p q P Q E. unfold f in P, Q. apply filter_In in P as [P P2], Q as [Q Q2].
    apply in_cs in P as (r1 & x1 & c1 & n1 & P), Q as (r2 & x2 & c2 & n2 & Q).
    apply (is_cover _ _ _ _ _ _ _ P R DT) in P2. apply (is_cover _ _ _ _ _ _ _ Q R DT) in Q2.
    assert (x1 = x2) as <- by (destruct P as (? & ? & _ & _ & _ & _ & _ & _ & X1 & _); destruct Q as (? & ? & _ & _ & _ & _ & _ & _ & X2 & _); lia).
    assert (1 <= wc_span c1) by (pose proof (is_own _ _ _ _ _ P) as (row' & R' & B & _); exact (row_pos rows (layout_pos _ _ LY) _ _ _ _ R' B)).
    assert (1 <= wc_span c2) by (pose proof (is_own _ _ _ _ _ Q) as (row' & R' & B & _); exact (row_pos rows (layout_pos _ _ LY) _ _ _ _ R' B)).
    apply (pos_uniq r x1 _ _ _ _ _ _ _ _ _ _ P Q P2 ltac:(lia) Q2 ltac:(lia)). }
  assert (COL : map (fun p => Z.of_nat (fst p)) (placed 0 row) = map c_col f).
  { apply strict_unique.
    - destruct (placed_sorted 0 row (row_pos' _ _ R)) as [S _]. clear - S. induction S as [|p l S IH F]; cbn [map]; [constructor|]. constructor; [exact IH|].
      apply Forall_forall. intros z Z. apply in_map_iff in Z as (q & <- & Q). rewrite Forall_forall in F. specialize (F q Q). cbn in F. lia.
    - apply strict_cols; [|apply NoDup_filter; exact nodup_cs | exact UN]. apply SS_filter. apply by_col_sorted.
    - intros z. split; intros Z; apply in_map_iff in Z.
      + destruct Z as ([x c] & <- & I). apply placed_begins0 in I. destruct (tile_above tbl rows LY AL r row x c R I) as (r0 & c0 & n & O & H & A & SP).
        assert (exists row0, nth_error rows r0 = Some row0 /\ data row0 = true) as (row0 & R0 & D0).
        { pose proof O as (row0 & R0 & _). exists row0. split; [exact R0|]. destruct (Nat.eq_dec r0 r) as [->|NEQ]; [congruence|].
          destruct H as (_ & H & _). pose proof (H 1 ltac:(lia)) as CT. replace (r0 + 1) with (S r0) in CT by lia. destruct (SEP _ _ CT) as (SP0 & _). apply data_iff. exact (SP0 row0 R0). }
        destruct (cell_ex r0 row0 x c0 n R0 D0 O H) as (p & P). apply in_map_iff. exists p. split; [destruct P as (? & ? & _ & _ & _ & _ & _ & _ & X & _); exact X|].
        unfold f. apply filter_In. split; [apply in_cs; eauto 6|]. apply (is_cover _ _ _ _ _ _ _ P R DT). exact A.
      + destruct Z as (p & <- & I). unfold f in I. apply filter_In in I as [I CV]. apply in_cs in I as (r0 & x & c0 & n & P). apply (is_cover _ _ _ _ _ _ _ P R DT) in CV.
        assert (HP : height rows r0 x n) by (destruct P as (? & ? & _ & _ & _ & _ & _ & _ & _ & _ & _ & H & _); exact H).
        destruct (tile_below tbl rows LY AL _ _ _ _ r (is_own _ _ _ _ _ P) HP CV) as (_ & row' & c & R' & B & _). rewrite R in R'. injection R' as <-.
        apply in_map_iff. exists (x, c). split; [destruct P as (? & ? & _ & _ & _ & _ & _ & _ & X & _); symmetry; exact X|]. apply placed_begins0. exact B. }
  assert (F2 : Forall2 (fun (p : nat * wcell) (q : cell) => cell_restored tr cr pa rows e r p (shown (Z.of_nat (D r)) q)) (placed 0 row) f).
  { apply (Forall2_keys _ _ _ _ _ COL). intros [x c] q IP IQ E. cbn [fst] in E. apply placed_begins0 in IP.
    unfold f in IQ. apply filter_In in IQ as [IQ CV]. apply in_cs in IQ as (r0 & x0 & c0 & n & P). apply (is_cover _ _ _ _ _ _ _ P R DT) in CV.
    assert (x0 = x) as -> by (destruct P as (? & ? & _ & _ & _ & _ & _ & _ & X & _); lia).
    assert (HP : height rows r0 x n) by (destruct P as (? & ? & _ & _ & _ & _ & _ & _ & _ & _ & _ & H & _); exact H).
    destruct (tile_below tbl rows LY AL _ _ _ _ r (is_own _ _ _ _ _ P) HP CV) as (SA & row' & c' & R' & B & SP). rewrite R in R'. injection R' as <-.
    assert (POS : 1 <= wc_span c) by exact (row_pos rows (layout_pos _ _ LY) _ _ _ _ R IP).
    assert (POS' : 1 <= wc_span c') by exact (row_pos rows (layout_pos _ _ LY) _ _ _ _ R B).
    destruct (begins_det row x x c' c x B IP ltac:(lia) ltac:(lia)) as [_ ->].
    destruct P as (row0 & cl & R0 & D0 & C0 & I0 & O0 & E1 & E2 & E3 & E4 & _ & RA & CSH).
    destruct (CLS r0 cl C0) as (row1 & y & ks & tail & R1 & K & F & S). rewrite R0 in R1. injection R1 as <-. rewrite D0 in S. destruct S as (FM & ->).
    assert (exists i, nth_error (own_cells row0) i = Some (x, c0) /\ nth_error (map c_td cl) i = Some (c_td q)) as (i & N1 & N2).
    { apply In_nth_error in I0 as (i & I0). exists i. split; [|rewrite nth_error_map, I0; reflexivity].
      assert (exists p, nth_error (own_cells row0) i = Some p /\ mk_rel r0 p q) as ([x1 c1] & N & M).
      { clear - FM I0. revert i I0. induction FM as [|a b l m H _ IHm]; intros [|i] I0; try discriminate; cbn [nth_error] in *; [injection I0 as ->; eauto | exact (IHm i I0)]. }
      assert (x1 = x) as -> by (destruct M as (_ & X & _); cbn [fst] in X; lia). rewrite N. do 2 f_equal.
      apply nth_error_In in N. unfold own_cells in N, O0. apply filter_In in N as [N _], O0 as [O _]. apply placed_begins0 in N, O.
      pose proof (row_pos rows (layout_pos _ _ LY) _ _ _ _ R0 N). pose proof (row_pos rows (layout_pos _ _ LY) _ _ _ _ R0 O).
      destruct (begins_det row0 x x c1 c0 x N O ltac:(lia) ltac:(lia)) as [_ X]. exact X. }
    exists r0, row0, c0, (c_td q), (Elem t_tr [] y (map c_td cl)), tail, i. cbn [fst snd e_kids].
    split; [lia|]. split; [exact R0|]. split; [exact N1|]. split; [exact SA|]. split; [symmetry; exact SP|]. split; [exact K|]. split; [exact N2|]. split; [exact CSH|].
    unfold shown, starts_in. rewrite E1. destruct (Nat.eqb_spec r0 r) as [->|NEQ]; [rewrite Z.eqb_refl; reflexivity|].
    destruct (Z.eqb_spec (Z.of_nat (D r0)) (Z.of_nat (D r))) as [X|X]; [|reflexivity]. exfalso. apply NEQ. apply (dix_inj data rows r0 r row0 row R0 D0 R DT). fold D. lia. }
  clear - F2. induction F2; cbn [map]; constructor; assumption.
Qed.
End Cells.

Theorem restored : exists out, rows_of e = (out, None) /\ List.length out = List.length rows
  /\ forall r row k o, nth_error rows r = Some row -> nth_error (e_kids e) r = Some k -> nth_error out r = Some o ->
       (header_row row -> o = fst k)
       /\ (~ header_row row -> e_tag o = t_tr /\ e_attrs o = [] /\ Forall2 (cell_restored tr cr pa rows e r) (placed 0 row) (kids_of t_td o)).
Proof.
  destruct cells_ex as (CL & CLL & CLS).
  assert (LD : List.length (filter no_header (children t_tr e)) = List.length (filter data rows)).
  { pose proof (dix_trs (List.length rows)) as X. unfold D, dix in X. rewrite firstn_all in X. rewrite <- X. rewrite <- kids_len at 1. rewrite trs_eq. rewrite <- (map_length fst), firstn_all. reflexivity. }
  destruct (C13_headers e (Z.of_nat W) (cs CL)) as (out & RO & LO & N).
  - intros t T. rewrite trs_eq in T. apply in_map_iff in T as (k & <- & K). apply In_nth_error in K as (r & K). destruct (row_at r k K) as (row & R).
    destruct (kid_at r row R) as (x & ks & tail & K' & F). pose proof (eq_trans (eq_sym K) K') as KK; injection KK as ->. exact (cell_row _ _ _ _ F (nth_error_In _ _ R)).
  - rewrite LD. apply cs_tiling; assumption.
  - intros p P. exact (cs_attributes CL CLL CLS p P).
  - apply cs_writes; assumption.
  - exists out. split; [exact RO|]. split; [rewrite LO, trs_eq, map_length; exact kids_len|].
    intros r row k o R K O. destruct (kid_at r row R) as (x & ks & tail & K' & F). pose proof (eq_trans (eq_sym K) K') as KK; injection KK as ->.
    destruct (N r (Elem t_tr [] x ks) o) as [NH1 NH2]; [rewrite trs_eq, nth_error_map, K; reflexivity | exact O|].
    rewrite (nh_row _ _ _ _ F) in NH1, NH2. cbn [fst]. split; intros HR.
    + apply NH1. unfold data. rewrite (proj2 (hdr_iff row) HR). reflexivity.
    + apply data_iff in HR. destruct (NH2 HR) as (KD & ET & EA). split; [exact ET|]. split; [exact EA|]. rewrite KD.
      pose proof (dix_trs r) as X. unfold dix in X. rewrite X. apply row_restored; assumption.
Qed.
End Restore.
