(** Proofs: labels and the rows with too few cells, as SpecTable describes them. *)
From Coq Require Import NArith ZArith List Bool String Lia.
From Verif Require Import PyStr PyStrFacts RegexFacts Xml Lint RowIter Helpers Extract SpecText SpecFields SpecLabel SpecHeader SpecNames SpecTable
  MFacts RangeProofs LabelProofs HeaderProofs NameProofs Prop_Label.
Import ListNotations.
Local Open Scope list_scope.
Local Open Scope N_scope.

(** ** Labels of struct rows *)
Lemma source_total same s : exists raw, label_source same s raw.
Proof.
  destruct same.
  - pose proof (struct_split_text s) as T. destruct (struct_split s) as [[name acr] rest]. destruct acr as [|c acr].
    + destruct name as [|c name]; [exists s; eapply la_text; [reflexivity | exact T]|].
      destruct (words_of_exists (c :: name)) as (us & W).
      destruct (smem (upper (c :: name)) [lbl_reserved; lbl_ellipsis; lbl_obsolete]) eqn:SC.
      * exists (c :: name). eapply la_word; [reflexivity | exact T | discriminate | apply smem_In; exact SC].
      * eexists. eapply la_name; [reflexivity | exact T | discriminate | intros I; apply smem_In in I; congruence | exact W].
    + exists (c :: acr). eapply la_acronym; [reflexivity | exact T | discriminate].
  - destruct (split1 58 s) as [h t] eqn:E. pose proof (split1_eq 58 s) as SE. pose proof (split1_fst_not_In 58 s) as NI. pose proof (split1_none 58 s) as N2.
    rewrite E in *. cbn [fst snd] in *. destruct t as [t|].
    + exists h. eapply la_before; [reflexivity | exact SE | exact NI].
    + destruct (words_of_exists s) as (us & W). exists (first_letters us). apply la_words; [reflexivity | apply N2; reflexivity | exact W].
Qed.

Lemma label_run x s key raw f : x_fig x <> [] -> label_source (x_content x =? x_label x)%nat s raw ->
  exists evs, parse_label x s key f = (Ok (lower (normalize_label raw)), f, evs).
Proof.
  intros Hx H.
  inversion H as [name acr rest SM T N | name rest SM T N I | name rest us SM T N I W | rest SM T | h rest SM -> NI | us SM NI W]; subst.
  - apply Nat.eqb_eq in SM. destruct (words_of_exists name) as (us & W). destruct (C17_same_column x s name raw rest us key f Hx SM T W) as (evs & P & _).
    destruct raw; [congruence|]. eauto.
  - apply Nat.eqb_eq in SM. destruct (words_of_exists raw) as (us & W). destruct (C17_same_column x s raw [] rest us key f Hx SM T W) as (evs & P & _).
    destruct raw as [|c n]; [congruence|]. replace (smem (upper (c :: n)) [utf8 "RESERVED"; [8230]; utf8 "OBSOLETE"]) with true in P; [eauto|].
    symmetry. apply smem_In. exact I.
  - apply Nat.eqb_eq in SM. destruct (C17_same_column x s name [] rest us key f Hx SM T W) as (evs & P & _).
    destruct name as [|c n]; [congruence|]. replace (smem (upper (c :: n)) [utf8 "RESERVED"; [8230]; utf8 "OBSOLETE"]) with false in P; [eauto|].
    symmetry. destruct (smem _ _) eqn:M; [|reflexivity]. apply smem_In in M. contradiction.
  - apply Nat.eqb_eq in SM. destruct (words_of_exists []) as (us & W). destruct (C17_same_column x raw [] [] rest us key f Hx SM T W) as (evs & P & _). eauto.
  - apply Nat.eqb_neq in SM. destruct (proj2 (C22_separate_column x (raw ++ 58 :: rest) key f Hx SM) raw rest eq_refl NI) as (evs & P & _). eauto.
  - apply Nat.eqb_neq in SM. destruct (proj1 (C22_separate_column x s key f Hx SM) us NI W) as (evs & P & _). eauto.
Qed.

Lemma label_inv x s key f l f' evs : x_fig x <> [] -> parse_label x s key f = (Ok l, f', evs) ->
  exists raw lbl, label_source (x_content x =? x_label x)%nat s raw /\ normal raw lbl /\ l = lower lbl.
Proof.
  intros Hx H. destruct (source_total (x_content x =? x_label x)%nat s) as (raw & LS). destruct (label_run x s key raw f Hx LS) as (ev & E).
  rewrite E in H. injection H as <- _ _. exists raw, (normalize_label raw). split; [exact LS|]. split; [apply normal_iff|]; reflexivity.
Qed.

Lemma normal_fun s a b : normal s a -> normal s b -> a = b.
Proof. rewrite !normal_iff. congruence. Qed.
Lemma moved_fun s a b : moved s a -> moved s b -> a = b.
Proof. rewrite !moved_iff. congruence. Qed.
Lemma brief_fun t a b : brief_told t a -> brief_told t b -> a = b.
Proof. rewrite !brief_iff. congruence. Qed.
Lemma kept_iff t b : kept_brief t b <-> b = match content_extract_brief t BRIEF_MAXLEN with Some [] => None | o => o end.
Proof.
  split; [intros (o & O & ->); apply brief_iff in O; rewrite O; destruct o as [[|]|]; reflexivity|].
  intros ->. exists (content_extract_brief t BRIEF_MAXLEN). split; [apply brief_iff; reflexivity|]. destruct (content_extract_brief t BRIEF_MAXLEN) as [[|]|]; reflexivity.
Qed.
Lemma kept_fun t a b : kept_brief t a -> kept_brief t b -> a = b.
Proof. rewrite !kept_iff. congruence. Qed.

Lemma colon_fun h r h' r' : h ++ 58 :: r = h' ++ 58 :: r' -> ~ In 58 h -> ~ In 58 h' -> h = h' /\ r = r'.
Proof.
  revert h'. induction h as [|c h IH]; intros [|c' h'] E N N'; cbn in E.
  - injection E as <-. auto.
  - injection E as E _. destruct N'. left. symmetry. exact E.
  - injection E as E _. destruct N. left. exact E.
  - injection E as <- E. destruct (IH _ E) as [-> ->]; [intros I; apply N; right; exact I | intros I; apply N'; right; exact I | auto].
Qed.
Ltac same_text :=
  match goal with
  | H : struct_text ?s _ _ _, H' : struct_text ?s _ _ _ |- _ =>
      let A := fresh in let B := fresh in let C := fresh in
      destruct (C17_reading_unique _ _ _ _ _ _ _ H H') as (A & B & C); clear H'; try subst; try discriminate A; try discriminate B
  end.
Lemma source_fun same s a b : label_source same s a -> label_source same s b -> a = b.
Proof.
  intros H H'. destruct H; destruct H'; subst; try congruence; try same_text; subst; try congruence; try contradiction.
  - rewrite <- (words_of_words _ _ H3), <- (words_of_words _ _ H8). reflexivity.
  - exact (proj1 (colon_fun _ _ _ _ H3 H1 H4)).
  - destruct H3. apply in_elt.
  - match goal with N : ~ In 58 (_ ++ 58 :: _) |- _ => destruct N; apply in_elt end.
  - match goal with A : words_of ?s ?u, B : words_of ?s ?v |- first_letters ?u = first_letters ?v => rewrite <- (words_of_words _ _ A), <- (words_of_words _ _ B) end. reflexivity.
Qed.

(** ** Labels of value rows *)
Lemma before_colon_split s h : before_colon s h -> fst (split1 58 s) = h.
Proof.
  intros (N & [->|(r & ->)]).
  - rewrite split1_notin by exact N. reflexivity.
  - rewrite split1_app by exact N. reflexivity.
Qed.
Lemma before_colon_total s : exists h, before_colon s h.
Proof.
  pose proof (split1_eq 58 s) as E. pose proof (split1_fst_not_In 58 s) as N. destruct (split1 58 s) as [h t]. cbn [fst] in *.
  exists h. split; [exact N|]. destruct t as [t|]; [right; exists t; exact E | left; exact E].
Qed.
Lemma underscored_replace s : underscored s = replace_char 32 [95] s.
Proof.
  induction s as [|c s IH]; [reflexivity|]. unfold underscored, replace_char in *. cbn [map flat_map]. rewrite IH. destruct (N.eqb_spec c 32); destruct (c =? 32) eqn:E; try reflexivity; lia.
Qed.
Lemma value_name_iff raw l : value_name raw l <-> normalize_label (rearrange_num_label raw) = l.
Proof.
  split; [intros (m & M & N); apply moved_iff in M as <-; apply normal_iff in N as <-; reflexivity|].
  intros <-. exists (rearrange_num_label raw). split; [apply moved_iff | apply normal_iff]; reflexivity.
Qed.
Lemma value_name_fun raw a b : value_name raw a -> value_name raw b -> a = b.
Proof. rewrite !value_name_iff. congruence. Qed.
Lemma value_text_fun s a b : value_text s a -> value_text s b -> a = b.
Proof. intros A B. apply value_text_split in A, B. congruence. Qed.
Lemma value_label_total same s : exists l, value_label same s l.
Proof.
  destruct same.
  - destruct (seqb_spec (upper s) lbl_reserved) as [R|R]; [eexists; apply vl_reserved; auto|].
    destruct (C18_pattern_total s) as (name & VT & _). destruct name as [|c n].
    + eexists. eapply vl_text; auto. apply value_name_iff. reflexivity.
    + eexists. eapply vl_name; eauto; [discriminate|]. apply value_name_iff. reflexivity.
  - destruct (seqb_spec (lower s) (utf8 "reserved")) as [R|R]; [eexists; apply vl_own_reserved; auto|].
    destruct (before_colon_total (lower s)) as (h & B). destruct (seqb_spec (upper (upper (underscored h))) lbl_reserved) as [U|U].
    + eexists. eapply vl_own_word; eauto.
    + eexists. eapply vl_own; eauto. apply value_name_iff. reflexivity.
Qed.
Lemma value_label_fun same s a b : value_label same s a -> value_label same s b -> a = b.
Proof.
  intros A B. destruct A; destruct B; try congruence;
    repeat match goal with
    | H : value_text ?s _, H' : value_text ?s _ |- _ => pose proof (value_text_fun _ _ _ H H'); clear H'; subst
    | H : before_colon ?s _, H' : before_colon ?s _ |- _ => apply before_colon_split in H; apply before_colon_split in H'; rewrite H in H'; subst
    end; try congruence; eapply value_name_fun; eassumption.
Qed.

(** [p] is the first paragraph of the cell with the label; the cell with the contents, if it is
    the same one. *)
Lemma label_cell_elem x row s : label_cell_text x row s <-> exists p, label_elem x row = Some p /\ s = to_text p.
Proof.
  unfold label_elem, nth_child. split.
  - intros (td & p & ps & T & C & ->). exists p. rewrite T, C. split; reflexivity.
  - intros (p & E & ->). destruct (nth_error (children t_td row) (x_label x)) as [td|] eqn:T; [|discriminate].
    destruct (children t_p td) as [|q ps] eqn:C; [discriminate|]. injection E as ->. exists td, p, ps. auto.
Qed.
Lemma value_run x row key content s l f : x_fig x <> [] -> nth_error (children t_td row) (x_content x) = Some content ->
  label_cell_text x row s -> value_label (x_content x =? x_label x)%nat s l ->
  exists evs, extract_value_label x row key content f = (Ok l, f, evs).
Proof.
  intros Hx CT LT V. pose proof (proj1 (label_cell_elem x row s) LT) as (p & LE & TL).
  assert (EC : x_content x = x_label x -> extract_content content = Some s).
  { intros SM. rewrite SM in CT. destruct LT as (td & q & ps & T & C & ->). rewrite T in CT. injection CT as ->. unfold extract_content, nth_child. rewrite C. reflexivity. }
  inversion V as [SM U | name l0 SM U VT N VN | l0 SM U VT VN | SM U | h SM U BC W | h l0 SM U BC W VN]; subst l.
  - apply Nat.eqb_eq in SM. destruct (C18_pattern_total s) as (name & VT & _).
    destruct (C18_value_label x row key content s name f Hx SM (EC SM) VT) as [R _]. rewrite (R U). eauto.
  - apply Nat.eqb_eq in SM. destruct (C18_value_label x row key content s name f Hx SM (EC SM) VT) as [_ R]. destruct (R U) as (evs & E & _). rewrite E.
    apply value_name_iff in VN as <-. destruct name; [congruence|]. eauto.
  - apply Nat.eqb_eq in SM. destruct (C18_value_label x row key content s [] f Hx SM (EC SM) VT) as [_ R]. destruct (R U) as (evs & E & _). rewrite E.
    apply value_name_iff in VN as <-. eauto.
  - unfold extract_value_label. rewrite SM. cbn [negb]. unfold extract_label_dedicated. rewrite LE, <- TL, U. eexists. reflexivity.
  - unfold extract_value_label. rewrite SM. cbn [negb]. unfold extract_label_dedicated. rewrite LE, <- TL. apply seqb_neq in U. rewrite U.
    apply before_colon_split in BC. destruct (split1 58 (lower s)) as [h' t]. cbn [fst] in BC. subst h'. cbv zeta. rewrite <- underscored_replace.
    set (raw := upper (underscored h)) in *.
    assert (D : exists e1, bind (match t with None => issue x L1003 (Some key) [] | Some _ => ret tt end) (fun _ => ret raw) f = (Ok raw, f, e1)).
    { destruct t; [eexists; reflexivity|]. unfold issue, bind. rewrite add_issue_row by exact Hx. eexists. reflexivity. }
    destruct D as (e1 & D). rewrite (bind_ok _ _ f raw f _ D). change RESERVED with lbl_reserved. rewrite W, seqb_refl. eexists. reflexivity.
  - unfold extract_value_label. rewrite SM. cbn [negb]. unfold extract_label_dedicated. rewrite LE, <- TL. apply seqb_neq in U. rewrite U.
    apply before_colon_split in BC. destruct (split1 58 (lower s)) as [h' t]. cbn [fst] in BC. subst h'. cbv zeta. rewrite <- underscored_replace.
    set (raw := upper (underscored h)) in *.
    assert (D : exists e1, bind (match t with None => issue x L1003 (Some key) [] | Some _ => ret tt end) (fun _ => ret raw) f = (Ok raw, f, e1)).
    { destruct t; [eexists; reflexivity|]. unfold issue, bind. rewrite add_issue_row by exact Hx. eexists. reflexivity. }
    destruct D as (e1 & D). rewrite (bind_ok _ _ f raw f _ D). change RESERVED with lbl_reserved. apply seqb_neq in W. rewrite W.
    apply value_name_iff in VN as <-. destruct (finish_value x raw key f Hx) as (evs & E & _). rewrite E. eexists. reflexivity.
Qed.
Lemma value_no_label x row key content f l f' evs : nth_error (children t_td row) (x_content x) = Some content ->
  extract_value_label x row key content f = (Ok l, f', evs) -> exists s, label_cell_text x row s.
Proof.
  intros CT H. unfold extract_value_label in H. destruct (x_content x =? x_label x)%nat eqn:SM; cbn [negb] in H.
  - apply Nat.eqb_eq in SM. unfold extract_content, nth_child in H. destruct (children t_p content) as [|p ps] eqn:C.
    + cbn [nth_error] in H. unfold bind in H. destruct (issue x L1000 (Some key) [] f) as [[[]]]; discriminate.
    + exists (to_text p), content, p, ps. rewrite <- SM. auto.
  - unfold extract_label_dedicated in H. destruct (label_elem x row) as [p|] eqn:LE; [|discriminate]. exists (to_text p). apply label_cell_elem. eauto.
Qed.
Lemma value_inv x row key content f l f' evs : x_fig x <> [] -> nth_error (children t_td row) (x_content x) = Some content ->
  extract_value_label x row key content f = (Ok l, f', evs) ->
  exists s, label_cell_text x row s /\ value_label (x_content x =? x_label x)%nat s l.
Proof.
  intros Hx CT H. destruct (value_no_label _ _ _ _ _ _ _ _ CT H) as (s & LT). destruct (value_label_total (x_content x =? x_label x)%nat s) as (l' & V).
  destruct (value_run x row key content s l' f Hx CT LT V) as (ev & E). rewrite E in H. injection H as -> _ _. eauto.
Qed.
Lemma label_cell_fun x row s s' : label_cell_text x row s -> label_cell_text x row s' -> s = s'.
Proof. rewrite !label_cell_elem. intros (p & A & ->) (q & B & ->). congruence. Qed.

(** ** Rows with too few cells *)
Lemma lstrip_text e : lstrip_by isspace (to_text e) = to_text e.
Proof. apply lstrip_stop. exact (proj1 (strip_ends isspace (itertext e))). Qed.
Lemma endswith_app suf s : endswith suf s = true <-> exists u, s = u ++ suf.
Proof.
  unfold endswith. rewrite startswith_app. split; intros (u & E).
  - exists (rev u). apply (f_equal (@rev N)) in E. rewrite rev_involutive, rev_app_distr, rev_involutive in E. exact E.
  - exists (rev u). rewrite E, rev_app_distr. reflexivity.
Qed.
Lemma title_iff tr t : extract_figure_title tr = t <-> split_title (to_text tr) t.
Proof.
  unfold extract_figure_title, split_title. cbv zeta. destruct (contains (utf8 "Figure") (to_text tr)) eqn:C.
  - apply contains_app in C as (a & b & C). split; [intros <-; left; eauto | intros [(_ & ->)|(N & _)]; [reflexivity | destruct (N _ _ C)]].
  - split; [intros <-; right|intros [((a & b & E) & _)|(_ & ->)]; [|reflexivity]].
    + split; [|reflexivity]. intros a b E. assert (contains (utf8 "Figure") (to_text tr) = true) by (apply contains_app; eauto). congruence.
    + assert (contains (utf8 "Figure") (to_text tr) = true) by (apply contains_app; eauto). congruence.
Qed.
Lemma handler_says x y :
  match row_err_handler (ec_handler (x_cls x)) y with
  | (PContinue, ex) => ex = None /\ tolerated x y /\ forall n, ~ splits_off x y n
  | (PStop, ex) => exists n, ex = Some n /\ splits_off x y n /\ ~ tolerated x y
  | (PRaise, ex) => ex = None /\ ~ tolerated x y /\ forall n, ~ splits_off x y n
  end.
Proof.
  unfold row_err_handler, tolerated, splits_off. destruct (ec_handler (x_cls x)) as [|prefix fig|suf].
  - destruct (children t_td (y_row y)) as [|td [|td' r]]; (split; [reflexivity|]); (split; [|auto]).
    + intros (? & ?). discriminate.
    + eauto.
    + intros (? & ?). discriminate.
  - rewrite lstrip_text. destruct (startswith prefix (lower (to_text (y_row y)))) eqn:S.
    + apply startswith_app in S as (u & S). eexists. split; [reflexivity|]. split; [|auto]. exists u, (extract_figure_title (y_row y)).
      split; [exact S|]. split; [apply title_iff|]; reflexivity.
    + split; [reflexivity|]. split; [auto|]. intros n (u & t & E & _). assert (startswith prefix (lower (to_text (y_row y))) = true) by (apply startswith_app; eauto). congruence.
  - destruct (endswith suf (to_text (y_row y))) eqn:S; (split; [reflexivity|]); (split; [|auto]).
    + apply endswith_app in S. exact S.
    + intros E. apply endswith_app in E. congruence.
Qed.
Lemma splits_iff x y ex : row_err_handler (ec_handler (x_cls x)) y = (PStop, ex) <-> exists n, ex = Some n /\ splits_off x y n.
Proof.
  pose proof (handler_says x y) as H. split.
  - intros E. rewrite E in H. destruct H as (n & -> & S & _). eauto.
  - intros (n & -> & S). destruct (row_err_handler (ec_handler (x_cls x)) y) as [[] ex] eqn:E.
    + destruct H as (n' & -> & S' & _). f_equal. f_equal. unfold splits_off in S, S'. destruct (ec_handler (x_cls x)); try contradiction.
      destruct S as (u & t & A & B & ->), S' as (u' & t' & A' & B' & ->). apply title_iff in B, B'. congruence.
    + destruct H as (_ & _ & N). destruct (N _ S).
    + destruct H as (_ & _ & N). destruct (N _ S).
Qed.
Lemma tolerated_iff x y ex : row_err_handler (ec_handler (x_cls x)) y = (PContinue, ex) <-> ex = None /\ tolerated x y.
Proof.
  pose proof (handler_says x y) as H. split.
  - intros E. rewrite E in H. tauto.
  - intros (-> & T). destruct (row_err_handler (ec_handler (x_cls x)) y) as [[] ex] eqn:E.
    + destruct H as (? & _ & _ & N). contradiction.
    + destruct H as (-> & _). reflexivity.
    + destruct H as (_ & N & _). contradiction.
Qed.
Lemma refused_iff x y : (exists ex, row_err_handler (ec_handler (x_cls x)) y = (PRaise, ex)) <-> ~ tolerated x y /\ forall n, ~ splits_off x y n.
Proof.
  pose proof (handler_says x y) as H. split.
  - intros (ex & E). rewrite E in H. tauto.
  - intros (T & N). destruct (row_err_handler (ec_handler (x_cls x)) y) as [[] ex] eqn:E.
    + destruct H as (n & _ & S & _). destruct (N _ S).
    + destruct H as (_ & T' & _). contradiction.
    + eauto.
Qed.
Lemma tolerated_splits x y n : tolerated x y -> splits_off x y n -> False.
Proof. unfold tolerated, splits_off. destruct (ec_handler (x_cls x)); auto. Qed.
Lemma splits_fun x y n n' : splits_off x y n -> splits_off x y n' -> n = n'.
Proof.
  intros A B. assert (E : row_err_handler (ec_handler (x_cls x)) y = (PStop, Some n)) by (apply splits_iff; eauto).
  assert (E' : row_err_handler (ec_handler (x_cls x)) y = (PStop, Some n')) by (apply splits_iff; eauto). congruence.
Qed.
