(** The characters of everything stage 2 produces come from the document. *)
From Coq Require Import NArith ZArith List Bool String Lia ZifyBool ZifyN.
From Verif Require Import PyStr PyStrFacts Regex Regexes Xml Json Lint RowIter Helpers Extract Document Output SpecChars JsonText.
Import ListNotations.
Local Open Scope list_scope.
Local Open Scope N_scope.

Section Chars.
Variable ok : N -> Prop.
Hypothesis CS : charset ok.
Notation T := (Forall ok).

Lemma ok_ascii c : c < 128 -> ok c.
Proof. apply (proj1 CS). Qed.
Lemma T_ascii s : forallb (fun c => c <? 128) s = true -> T s.
Proof. rewrite forallb_forall, Forall_forall. intros H c I. apply ok_ascii. specialize (H c I). lia. Qed.
Ltac asc := apply T_ascii; vm_compute; reflexivity.

Lemma T_incl a b : incl a b -> T b -> T a.
Proof. rewrite !Forall_forall. intros I H c C. apply H, I, C. Qed.
Lemma T_app a b : T a -> T b -> T (a ++ b).
Proof. intros A B. apply Forall_app; split; assumption. Qed.
Lemma T_rev s : T s -> T (rev s).
Proof. apply T_incl. intros c. apply in_rev. Qed.
Lemma T_drop p s : T s -> T (drop_while p s).
Proof. induction 1 as [|c s C S IH]; cbn [drop_while]; [constructor|]. destruct (p c); [exact IH | constructor; assumption]. Qed.
Lemma T_lstrip p s : T s -> T (lstrip_by p s).
Proof. apply T_drop. Qed.
Lemma T_rstrip p s : T s -> T (rstrip_by p s).
Proof. intros H. apply T_rev, T_drop, T_rev, H. Qed.
Lemma T_strip_by p s : T s -> T (strip_by p s).
Proof. intros H. apply T_rstrip, T_lstrip, H. Qed.
Lemma T_strip s : T s -> T (strip s).
Proof. apply T_strip_by. Qed.
Lemma T_flat (f : N -> str) s : (forall c, ok c -> T (f c)) -> T s -> T (flat_map f s).
Proof. intros F. induction 1 as [|c s C S IH]; cbn [flat_map]; [constructor | apply T_app; [apply F, C | exact IH]]. Qed.
Lemma T_upper s : T s -> T (upper s).
Proof. apply T_flat. intros c C. apply Forall_forall. intros d. apply (proj1 (proj2 CS)), C. Qed.
Lemma T_lower s : T s -> T (lower s).
Proof. apply T_flat. intros c C. apply Forall_forall. intros d. apply (proj2 (proj2 CS)), C. Qed.
Lemma T_replace c b s : T b -> T s -> T (replace_char c b s).
Proof. intros B. apply T_flat. intros x X. destruct (x =? c); [exact B | constructor; [exact X | constructor]]. Qed.
Lemma T_pair c b : T b -> forall n s, (List.length s <= n)%nat -> T s -> T (replace_pair c b s).
Proof.
  intros B. induction n as [|n IH]; intros s L H.
  - destruct s; [constructor | cbn [List.length] in L; lia].
  - destruct s as [|x [|y r]]; [constructor | exact H |]. cbn [List.length] in L.
    inversion H as [|? ? X H1]; subst. inversion H1 as [|? ? Y H2]; subst.
    change (T (if (x =? c) && (y =? c) then b ++ replace_pair c b r else x :: replace_pair c b (y :: r))).
    destruct (_ && _); [apply T_app; [exact B | apply IH; [lia | exact H2]] | constructor; [exact X | apply IH; [cbn [List.length]; lia | exact H1]]].
Qed.
Lemma T_collapse s : T s -> T (collapse_spaces s).
Proof.
  induction 1 as [|c s C S IH]; cbn [collapse_spaces]; [constructor|]. destruct (c =? 32).
  - destruct s as [|y r]; [constructor; [apply ok_ascii; lia | constructor]|]. destruct (y =? 32); [exact IH | constructor; [apply ok_ascii; lia | exact IH]].
  - constructor; assumption.
Qed.
Lemma T_split1 c s : T s -> T (fst (split1 c s)) /\ (forall r, snd (split1 c s) = Some r -> T r).
Proof.
  induction 1 as [|x s C S IH]; cbn [split1]; [split; [constructor | discriminate]|]. destruct (x =? c).
  - split; [constructor|]. cbn [snd]. intros r [= <-]. exact S.
  - destruct (split1 c s) as [h t]. cbn [fst snd] in *. destruct IH as [A B]. split; [constructor; assumption | exact B].
Qed.
Lemma T_words_aux s : forall cur, T cur -> T s -> Forall T (words_aux cur s).
Proof.
  induction s as [|c r IH]; intros cur C S; cbn [words_aux].
  - destruct cur; [constructor | constructor; [apply T_rev, C | constructor]].
  - inversion S as [|? ? X R]; subst. destruct (isspace c).
    + destruct cur; [apply IH; [constructor | exact R] | constructor; [apply T_rev, C | apply IH; [constructor | exact R]]].
    + apply IH; [constructor; assumption | exact R].
Qed.
Lemma T_initials s : T s -> T (initials s).
Proof.
  intros H. unfold initials. pose proof (T_words_aux s [] (Forall_nil _) H) as W. fold (words s) in W.
  induction W as [|w ws W _ IH]; cbn [flat_map]; [constructor|]. apply T_app; [|exact IH].
  destruct w as [|c w]; [constructor|]. inversion W; subst. constructor; [assumption | constructor].
Qed.
Lemma T_acronym s : T s -> T (generate_acronym s).
Proof. intros H. apply T_lower, T_initials, H. Qed.
Lemma T_uint d : T (uint_str d).
Proof. induction d; cbn [uint_str]; constructor; try assumption; apply ok_ascii; lia. Qed.
Lemma T_N n : T (str_of_N n).
Proof. apply T_uint. Qed.
Lemma T_Z z : T (str_of_Z z).
Proof. destruct z; cbn [str_of_Z]; [constructor; [apply ok_ascii; lia | constructor] | apply T_N | constructor; [apply ok_ascii; lia | apply T_N]]. Qed.
Lemma T_join sep l : T sep -> Forall T l -> T (join sep l).
Proof.
  intros P. induction 1 as [|x l X L IH]; cbn [join]; [constructor|]. destruct l as [|y l]; [exact X|].
  apply T_app; [exact X | apply T_app; [exact P | exact IH]].
Qed.

(** ** Patterns *)

Definition caps_ok (g : caps) : Prop := Forall (fun p => T (snd p)) g.
Lemma T_between s t : T s -> T (between s t).
Proof. intros H. unfold between. rewrite Forall_forall in *. intros c I. apply H. rewrite <- (firstn_skipn (List.length s - List.length t) s). apply in_or_app. left. exact I. Qed.
Lemma star_ok {A} (Q : A -> Prop) p s : T s -> forall b k, (forall b' t x, T t -> k b' t = Some x -> Q x) -> forall x, star_loop p b s k = Some x -> Q x.
Proof.
  induction 1 as [|c s C S IH]; intros b k K x; cbn [star_loop].
  - apply K. constructor.
  - destruct (p c); [|apply K; constructor; assumption]. destruct (star_loop p false s k) as [y|] eqn:E.
    + intros [= <-]. exact (IH false k K y E).
    + apply K. constructor; assumption.
Qed.
Lemma mt_ok {A} (Q : A -> Prop) r : forall b s g k, T s -> caps_ok g ->
  (forall b' t g' x, T t -> caps_ok g' -> k b' t g' = Some x -> Q x) -> forall x, mt r b s g k = Some x -> Q x.
Proof.
  induction r as [|c|c|c|r IH|r1 IH1 r2 IH2|r1 IH1 r2 IH2|n r IH| |]; intros b s g k S G K x; cbn [mt].
  - apply K; assumption.
  - destruct s as [|y s]; [discriminate|]. destruct (cls_ok c y); [|discriminate]. inversion S; subst. apply K; assumption.
  - apply star_ok; [exact S|]. intros b' t y HT. apply K; assumption.
  - destruct s as [|y s]; [discriminate|]. destruct (cls_ok c y); [|discriminate]. inversion S; subst.
    apply star_ok; [assumption|]. intros b' t z HT. apply K; assumption.
  - destruct (mt r b s g k) as [y|] eqn:E; [intros [= <-]; exact (IH b s g k S G K y E) | apply K; assumption].
  - apply IH1; [exact S | exact G |]. intros b' t g' y HT G'. apply IH2; assumption.
  - destruct (mt r1 b s g k) as [y|] eqn:E; [intros [= <-]; exact (IH1 b s g k S G K y E) | apply IH2; assumption].
  - apply IH; [exact S | exact G |]. intros b' t g' y HT G'. apply K; [exact HT|]. constructor; [apply T_between, S | exact G'].
  - destruct b; [apply K; assumption | discriminate].
  - destruct s as [|y [|z s]]; [apply K; assumption | | discriminate]. destruct (y =? 10); [apply K; assumption | discriminate].
Qed.
Lemma match_ok r s g : T s -> re_match r s = Some g -> caps_ok g.
Proof.
  intros S. unfold re_match. apply (mt_ok caps_ok); [exact S | constructor |]. intros b t g' x _ G [= <-]. exact G.
Qed.
Lemma group_ok n g s : caps_ok g -> group n g = Some s -> T s.
Proof.
  intros G. unfold group. destruct (find _ g) as [p|] eqn:E; [|discriminate]. intros [= <-].
  apply find_some in E. unfold caps_ok in G. rewrite Forall_forall in G. exact (G p (proj1 E)).
Qed.
Lemma grp_ok n r s x : T s -> grp n (re_match r s) = Some x -> T x.
Proof. intros S. unfold grp. destruct (re_match r s) as [g|] eqn:E; [|discriminate]. apply group_ok, (match_ok r s g S E). Qed.
Lemma grp_nonempty_ok n r s x : T s -> grp_nonempty n (re_match r s) = Some x -> T x.
Proof.
  intros S. unfold grp_nonempty. destruct (grp n (re_match r s)) as [y|] eqn:E; [|discriminate].
  destruct y; [discriminate|]. intros [= <-]. exact (grp_ok n r s _ S E).
Qed.

(** ** Labels and briefs *)

Definition oT (o : option str) : Prop := forall s, o = Some s -> T s.
Lemma T_brief s n : T s -> oT (content_extract_brief s n).
Proof.
  intros S x. unfold content_extract_brief. destruct (negb _); [discriminate|].
  destruct (grp G_brief (re_match STRUCT_LABEL_REGEX s)) as [b|] eqn:E; [|discriminate].
  assert (B : T (lstrip_by (N.eqb 32) (rstrip_by (N.eqb 46) b))) by (apply T_lstrip, T_rstrip, (grp_ok _ _ _ _ S E)).
  cbv zeta. destruct (_ <=? n); [intros [= <-]; exact B|]. destruct (_ <=? n); [|discriminate]. intros [= <-]. apply T_split1, B.
Qed.
Lemma T_rearrange s : T s -> T (rearrange_num_label s).
Proof.
  intros S. unfold rearrange_num_label. destruct (grp G_1 _) as [a|] eqn:A; [|exact S]. destruct (grp G_2 _) as [b|] eqn:B; [|exact S].
  apply T_strip_by, T_app; [apply T_strip_by, (grp_ok _ _ _ _ S B)|]. apply T_app; [asc | exact (grp_ok _ _ _ _ S A)].
Qed.
Lemma T_normalize s : T s -> T (normalize_label s).
Proof.
  intros S. unfold normalize_label. apply T_upper. eapply T_pair; [asc | apply le_n |].
  apply T_replace; [asc|]. apply T_replace; [constructor|]. apply T_replace; [asc|]. apply T_rstrip, T_lstrip, S.
Qed.
Lemma T_clean s : T s -> T (clean_hdr s).
Proof. intros S. apply T_strip, T_collapse, T_replace; [constructor|]. apply T_replace; [asc | exact S]. Qed.

(** ** Elements *)

Definition good (e : elem) : Prop := T (itertext e).
Definition goodk (k : kid) : Prop := good (fst k) /\ T (snd k).
Lemma good_iff t a x ks : good (Elem t a x ks) <-> T x /\ Forall goodk ks.
Proof.
  unfold good. cbn [itertext]. rewrite Forall_app. apply and_iff_compat_l. induction ks as [|k ks IH]; cbn [flat_map].
  - split; constructor.
  - rewrite !Forall_app, IH. unfold goodk at 2, good. split.
    + intros [[A B] C]. constructor; [split; assumption | exact C].
    + intros H. inversion H as [|? ? [A B] C]; subst. tauto.
Qed.
Lemma good_kids e : good e -> Forall goodk (e_kids e).
Proof. destruct e. intros H. apply good_iff in H. apply H. Qed.
Lemma good_text e : good e -> T (to_text e).
Proof. apply T_strip. Qed.
Lemma good_kids_of t e : good e -> Forall goodk (kids_of t e).
Proof. intros H. apply good_kids in H. rewrite Forall_forall in *. intros k I. apply filter_In in I. apply H, I. Qed.
Lemma good_children t e : good e -> Forall good (children t e).
Proof.
  intros H. apply (good_kids_of t) in H. rewrite Forall_forall in *. intros c I. apply in_map_iff in I as [k [<- I]]. apply (H k I).
Qed.
Lemma good_nth t n e c : good e -> nth_child t n e = Some c -> good c.
Proof. intros H E. apply nth_error_In in E. pose proof (good_children t e H) as G. rewrite Forall_forall in G. exact (G c E). Qed.
Lemma good_del a e : good e -> good (del_attr a e).
Proof. destruct e. intros H. apply good_iff in H. apply good_iff. exact H. Qed.

(** ** Rows *)

Definition goody (y : yrow) : Prop := good (y_row y) /\ Forall goodk (y_sibs y).
Definition good_alst (l : alst) : Prop := Forall (fun p => goodk (snd (fst p))) l.
Lemma select_good ks : Forall goodk ks -> Forall goody (select_rows ks).
Proof.
  induction 1 as [|k ks K H IH]; cbn [select_rows]; [constructor|]. destruct (_ && _); [|exact IH].
  constructor; [split; [apply K | exact H] | exact IH].
Qed.
Lemma decr_good l : good_alst l -> good_alst (alst_count_decr l).
Proof.
  unfold good_alst. intros H. unfold alst_count_decr. rewrite Forall_forall in *. intros p I. apply in_flat_map in I as [[[n k] c] [I J]].
  destruct (_ <? _)%Z; [|destruct J]. destruct J as [<-|[]]. exact (H _ I).
Qed.
Lemma insert_good n k c l : goodk k -> good_alst l -> good_alst (alst_insert l n k c).
Proof.
  intros K. induction 1 as [|p l P L IH]; cbn [alst_insert]; [constructor; [exact K | constructor]|].
  destruct p as [[m k'] c']. destruct (_ <? _)%Z; constructor; try assumption. constructor; assumption.
Qed.
Lemma store_good tds : Forall goodk tds -> forall col l l', good_alst l -> store_spans tds col l = Some l' -> good_alst l'.
Proof.
  induction 1 as [|k tds K H IH]; intros col l l' L; cbn [store_spans]; [intros [= <-]; exact L|].
  destruct (span_attr a_rowspan (fst k)); [|discriminate]. destruct (span_attr a_colspan (fst k)); [|discriminate].
  apply IH. destruct (_ <? _)%Z; [|exact L]. apply insert_good; [|exact L]. split; [apply good_del, K | apply K].
Qed.
Definition goodp (p : Z * kid) : Prop := goodk (snd p).
Lemma flush_good pend : Forall goodp pend -> forall col ys p c, flush pend col = Some (ys, p, c) -> Forall goodk ys /\ Forall goodp p.
Proof.
  induction 1 as [|[o k] pend K H IH]; intros col ys p c; cbn [flush].
  - intros [= <- <- <-]. split; constructor.
  - destruct (_ =? _)%Z.
    + destruct (span_attr _ _) as [w|]; [|discriminate]. destruct (flush pend _) as [[[ys' p'] c']|] eqn:E; [|discriminate].
      intros [= <- <- <-]. destruct (IH _ _ _ _ E) as [A B]. split; [constructor; assumption | exact B].
    + intros [= <- <- <-]. split; [constructor | constructor; assumption].
Qed.
Lemma merge_good tds : Forall goodk tds -> forall pend col ks, Forall goodp pend -> merge_cells tds pend col = Some ks -> Forall goodk ks.
Proof.
  induction 1 as [|td tds K H IH]; intros pend col ks P; cbn [merge_cells].
  - destruct pend as [|[o k] r]; [intros [= <-]; constructor|]. intros [= <-]. inversion P as [|? ? P1 P2]; subst. apply Forall_app. split.
    + destruct (_ =? _)%Z; constructor; [exact P1 | constructor].
    + rewrite Forall_forall in *. intros x I. apply in_map_iff in I as [q [<- I]]. exact (P2 q I).
  - destruct (flush pend col) as [[[ys p] c]|] eqn:E; [|discriminate]. destruct (span_attr _ _); [|discriminate].
    destruct (merge_cells tds p _) as [zs|] eqn:M; [|discriminate]. intros [= <-]. destruct (flush_good _ P _ _ _ _ E) as [A B].
    apply Forall_app. split; [exact A | constructor; [exact K | exact (IH _ _ _ B M)]].
Qed.
Lemma loop_good rows : Forall goody rows -> forall l, good_alst l -> Forall goody (fst (row_loop rows l)).
Proof.
  induction 1 as [|y rows Y H IH]; intros l L; cbn [row_loop]; [constructor|]. destruct (contains_th (y_row y)).
  - specialize (IH l L). destruct (row_loop rows l) as [ys e]. constructor; assumption.
  - match goal with |- context [match ?r with None => _ | Some _ => _ end] => assert (R : forall y', r = Some y' -> goody y') end.
    { destruct l as [|a l]; [intros y' [= <-]; exact Y|]. destruct (sorted_row_children (y_row y) (a :: l)) as [ks|] eqn:E; [|discriminate].
      intros y' [= <-]. split; [|constructor]. cbn [y_row]. apply good_iff. split; [constructor|]. refine (merge_good _ _ _ _ _ _ E).
      - apply good_kids_of, Y.
      - unfold good_alst in L. rewrite Forall_forall in *. intros p I. apply in_map_iff in I as [[[n k] c] [<- I]]. exact (L _ I). }
    destruct (match l with [] => _ | _ => _ end) as [y'|]; [|constructor]. specialize (R y' eq_refl).
    destruct (store_spans _ _ _) as [l'|] eqn:E; [|constructor].
    assert (L' : good_alst l') by exact (store_good _ (good_kids_of t_td _ (proj1 R)) _ _ _ L E).
    specialize (IH _ (decr_good _ L')). destruct (row_loop rows _) as [ys e]. constructor; assumption.
Qed.
Lemma iter_good tbl rows fin : good tbl -> row_iter tbl = (rows, fin) -> Forall goody rows.
Proof.
  intros G E. unfold row_iter in E. replace rows with (fst (row_loop (select_rows (e_kids tbl)) [])) by (rewrite E; reflexivity).
  apply loop_good; [apply select_good, good_kids, G | constructor].
Qed.
End Chars.
