(** The characters of the entities and lint entries of a document. *)
From Coq Require Import NArith ZArith List Bool String Lia ZifyBool ZifyN.
From Verif Require Import PyStr PyStrFacts Regex Regexes Xml Json Lint RowIter Helpers Extract Document Output SpecChars JsonText CharProofs.
Import ListNotations.
Local Open Scope list_scope.
Local Open Scope N_scope.
Local Open Scope m_scope.

Section Flow.
Variable ok : N -> Prop.
Hypothesis CS : charset ok.
Notation T := (Forall ok).
Notation good := (good ok).
Notation oT := (oT ok).
Ltac asc := apply (T_ascii ok CS); vm_compute; reflexivity.

(** ** JSON values *)

Inductive jok : json -> Prop :=
| jk_null : jok JNull
| jk_bool b : jok (JBool b)
| jk_int z : jok (JInt z)
| jk_str s : T s -> jok (JStr s)
| jk_list l : Forall jok l -> jok (JList l)
| jk_obj l : Forall (fun p => T (fst p) /\ jok (snd p)) l -> jok (JObj l).
Definition members_ok (l : list (str * json)) : Prop := Forall (fun p => T (fst p) /\ jok (snd p)) l.
Lemma member_ok k j l : forallb (fun c => c <? 128) k = true -> jok j -> members_ok l -> members_ok ((k, j) :: l).
Proof. intros K J L. constructor; [split; [apply (T_ascii ok CS), K | exact J] | exact L]. Qed.
Ltac mem := apply member_ok; [vm_compute; reflexivity | |].

Definition rok (r : range) : Prop :=
  match r with RInt _ _ => True | RDyn a b => T a /\ T b | RText s => T s end.
Definition sok (f : sfield) : Prop := T (sf_label f) /\ rok (sf_range f) /\ oT (sf_brief f).
Definition vok (f : vfield) : Prop := T (vf_val f) /\ T (vf_label f) /\ oT (vf_brief f).
Definition mok (m : meta) : Prop := oT (m_title m) /\ T (m_fig m) /\ oT (m_parent m).
Definition bok (b : body) : Prop :=
  match b with BStruct _ fs => Forall sok fs | BValues fs => Forall vok fs end.
Definition eok (e : event) : Prop :=
  match e with
  | EvLint l => T (l_fig l) /\ T (l_msg l) /\ oT (l_row l) /\ members_ok (l_ctx l)
  | EvEnt e => mok (en_meta e) /\ bok (en_body e)
  end.

Lemma oT_none : oT None.
Proof. intros s. discriminate. Qed.
Lemma oT_some s : T s -> oT (Some s).
Proof. intros H x [= <-]. exact H. Qed.

Lemma brief_members b : oT b -> members_ok (brief_json b).
Proof. destruct b as [b|]; intros H; cbn [brief_json]; [mem; [constructor; apply H; reflexivity | constructor] | constructor]. Qed.
Lemma range_jok r : rok r -> jok (range_json r).
Proof.
  destruct r as [a b|a b|s]; cbn [rok range_json]; intros H.
  - constructor. mem; [constructor|]. mem; constructor.
  - constructor. mem; [constructor; apply H|]. mem; constructor. apply H.
  - constructor. exact H.
Qed.
Lemma sfield_jok f : sok f -> jok (sfield_json f).
Proof. intros (A & B & C). constructor. cbn [app]. mem; [constructor; exact A|]. mem; [apply range_jok, B | apply brief_members, C]. Qed.
Lemma vfield_jok f : vok f -> jok (vfield_json f).
Proof. intros (A & B & C). constructor. cbn [app]. mem; [constructor; exact A|]. mem; [constructor; exact B | apply brief_members, C]. Qed.
Lemma meta_members m l : mok m -> members_ok l -> members_ok (meta_json m ++ l).
Proof.
  intros (A & B & C) L. unfold meta_json. rewrite <- !app_assoc. unfold members_ok. apply Forall_app. split.
  - destruct (m_title m) as [t|]; [mem; [constructor; apply A; reflexivity | constructor] | constructor].
  - cbn [app]. mem; [constructor; exact B|]. apply Forall_app. split; [|exact L].
    destruct (m_parent m) as [t|]; [mem; [constructor; apply C; reflexivity | constructor] | constructor].
Qed.
Lemma entity_jok e : eok (EvEnt e) -> jok (entity_json e).
Proof.
  intros [A B]. unfold entity_json. destruct (en_body e) as [k fs|fs]; constructor; apply meta_members; try exact A; cbn [bok] in B.
  - mem; [constructor; destruct k; asc|]. mem; [|constructor]. constructor. rewrite Forall_forall in *. intros j I.
    apply in_map_iff in I as [f [<- I]]. apply sfield_jok, B, I.
  - mem; [|mem; [constructor; asc | constructor]]. constructor. rewrite Forall_forall in *. intros j I.
    apply in_map_iff in I as [f [<- I]]. apply vfield_jok, B, I.
Qed.
Lemma lint_jok l : eok (EvLint l) -> jok (lint_json l).
Proof.
  intros (A & B & C & D). unfold lint_json. constructor. cbn [app]. mem; [constructor; destruct (l_code l); asc|].
  mem; [constructor; exact B|]. mem; [constructor; exact A|]. mem; [constructor; exact D|].
  destruct (l_row l) as [r|]; [mem; [constructor; apply C; reflexivity | constructor] | constructor].
Qed.

(** ** Computations *)

Definition holds {A} (m : M A) (Q : A -> Prop) : Prop :=
  forall f, Forall eok (snd (m f)) /\ forall a, fst (fst (m f)) = Ok a -> Q a.
Lemma h_ret {A} (a : A) (Q : A -> Prop) : Q a -> holds (ret a) Q.
Proof. intros H f. split; [constructor|]. cbn. intros b [= <-]. exact H. Qed.
Lemma h_throw {A} e (Q : A -> Prop) : holds (throw e) Q.
Proof. intros f. split; [constructor | discriminate]. Qed.
Lemma h_bind {A B} (m : M A) (k : A -> M B) (P : A -> Prop) (Q : B -> Prop) :
  holds m P -> (forall a, P a -> holds (k a) Q) -> holds (bind m k) Q.
Proof.
  intros H K f. unfold bind. specialize (H f). destruct (m f) as [[[a|e|] f1] t1]; cbn [fst snd] in *.
  - destruct H as [H1 H2]. specialize (K a (H2 a eq_refl) f1). destruct (k a f1) as [[r f2] t2]. cbn [fst snd] in *.
    split; [apply Forall_app; split; [exact H1 | apply K] | apply K].
  - split; [apply H | discriminate].
  - split; [apply H | discriminate].
Qed.
Lemma h_then {B} (m : M unit) (k : M B) (Q : B -> Prop) : holds m (fun _ => True) -> holds k Q -> holds (bind m (fun _ => k)) Q.
Proof. intros H K. apply (h_bind _ _ _ _ H). intros _ _. exact K. Qed.
Lemma h_emit e : eok e -> holds (emit e) (fun _ => True).
Proof. intros H f. split; [constructor; [exact H | constructor] | trivial]. Qed.
Lemma h_catch (m : M unit) h : holds m (fun _ => True) -> (forall e, holds (h e) (fun _ => True)) -> holds (catch m h) (fun _ => True).
Proof.
  intros H K f. unfold catch. specialize (H f). destruct (m f) as [[[a|e|] f1] t1]; cbn [fst snd] in *; try exact H.
  specialize (K e f1). destruct (h e f1) as [[r f2] t2]. cbn [fst snd] in *. split; [apply Forall_app; split; [apply H | apply K] | trivial].
Qed.
Lemma h_iter {A} (f : A -> M unit) l : (forall x, In x l -> holds (f x) (fun _ => True)) -> holds (iterM f l) (fun _ => True).
Proof.
  induction l as [|x l IH]; intros H; cbn [iterM]; [apply h_ret; trivial|].
  apply h_then; [apply H; left; reflexivity | apply IH; intros y I; apply H; right; exact I].
Qed.
Lemma h_if {A} (b : bool) (m m' : M A) Q : holds m Q -> holds m' Q -> holds (if b then m else m') Q.
Proof. destruct b; trivial. Qed.
Lemma h_issue c fig row ctx : T fig -> oT row -> members_ok ctx -> holds (add_issue c fig row ctx) (fun _ => True).
Proof.
  intros A B C. unfold add_issue. destruct (seqb fig []); [apply h_throw|]. destruct (_ && _); [apply h_throw|].
  apply h_emit. cbn [eok l_fig l_msg l_row l_ctx]. repeat split; try assumption. destruct c; asc.
Qed.
Lemma ctx_ok k s : forallb (fun c => c <? 128) k = true -> T s -> members_ok [(k, JStr s)].
Proof. intros K H. apply member_ok; [exact K | constructor; exact H | constructor]. Qed.

(** ** Tables *)

Section Table.
Variable parse : meta -> elem -> M unit.
Hypothesis HP : forall m t, mok m -> good t -> holds (parse m t) (fun _ => True).
Variable x : xctx.
Hypothesis HM : mok (x_meta x).

Lemma fig_ok : T (x_fig x).
Proof. exact (proj1 (proj2 HM)). Qed.
Lemma h_xissue c row : T row -> holds (issue x c (Some row) []) (fun _ => True).
Proof. intros H. apply h_issue; [exact fig_ok | apply oT_some, H | constructor]. Qed.
Lemma key_ok r : rok r -> T (range_row_key r).
Proof. destruct r as [a b|a b|s]; cbn [rok range_row_key]; intros H; [apply (T_Z ok CS) | apply H | exact H]. Qed.
Lemma h_validate l row : T l -> T row -> holds (validate_label l (x_fig x) row) (fun _ => True).
Proof.
  intros L R. unfold validate_label. destruct (label_invalid l); [|apply h_ret; trivial].
  apply h_issue; [exact fig_ok | apply oT_some, R | apply ctx_ok; [vm_compute; reflexivity | exact L]].
Qed.
Lemma h_range v row : T v -> T row -> holds (parse_range x v row) rok.
Proof.
  intros V R. unfold parse_range. destruct (re_match RANGE_REGEX v) as [g|]; [|apply h_then; [apply h_xissue, R | apply h_ret; exact V]].
  destruct (group G_high g) as [hs|]; [|apply h_throw]. destruct (py_int hs) as [high|]; [|apply h_throw].
  destruct (match group G_low g with Some ls => _ | None => _ end) as [low|]; [|apply h_throw].
  apply h_then; [apply h_if; [apply h_xissue, R | apply h_ret; trivial] | apply h_ret; exact Logic.I].
Qed.
Lemma h_dynamic v : T v -> holds (parse_dynamic_range x v) rok.
Proof.
  intros V. unfold parse_dynamic_range. cbv zeta.
  assert (C : T (replace_char 32 [] (replace_char 10 [] v))) by (apply T_replace; [constructor|]; apply T_replace; [constructor | exact V]).
  destruct (re_match DYNAMIC_RANGE_REGEX _) as [g|] eqn:E; [|apply h_then; [apply h_xissue, V | apply h_ret; exact V]].
  pose proof (match_ok ok _ _ _ C E) as G.
  destruct (group G_low g) as [a|] eqn:A; [|apply h_throw]. destruct (group G_high g) as [b|] eqn:B; [|apply h_throw].
  apply h_ret. split; [exact (group_ok ok _ _ _ G B) | exact (group_ok ok _ _ _ G A)].
Qed.
Lemma h_separate l row : T l -> T row -> holds (extract_label_separate x l row) T.
Proof.
  intros L R. unfold extract_label_separate. pose proof (proj1 (T_split1 ok 58 l L)) as H. destruct (split1 58 l) as [h [t|]]; cbn [fst] in H.
  - apply h_then; [apply h_if; [apply h_xissue, R | apply h_ret; trivial] | apply h_ret, H].
  - apply h_then; [apply h_xissue, R | apply h_ret, T_initials, H].
Qed.
Lemma h_same l row : T l -> T row -> holds (extract_label_same x l row) T.
Proof.
  intros L R. unfold extract_label_same. destruct (re_match STRUCT_LABEL_REGEX l) as [g|] eqn:E.
  - rewrite <- E. destruct (grp_nonempty G_acronym _) as [a|] eqn:A; [apply h_ret, (grp_nonempty_ok ok _ _ _ _ L A)|].
    destruct (grp_nonempty G_label _) as [b|] eqn:B.
    + pose proof (grp_nonempty_ok ok _ _ _ _ L B) as H. apply h_if; apply h_ret; [exact H | apply T_acronym; assumption].
    + apply h_then; [apply h_xissue, R | apply h_ret, L].
  - apply h_then; [apply h_xissue, R | apply h_ret, T_acronym; [exact CS | apply T_split1, L]].
Qed.
Lemma h_label l row : T l -> T row -> holds (parse_label x l row) T.
Proof.
  intros L R. unfold parse_label. apply (h_bind _ _ T).
  - apply h_if; [apply h_same | apply h_separate]; assumption.
  - intros a A. cbv zeta. pose proof (T_normalize ok CS a A) as N. apply h_then; [apply h_validate; assumption | apply h_ret, T_lower; assumption].
Qed.
Lemma h_sub m data : mok m -> good data -> holds (extract_data_sub_table parse m data) (fun _ => True).
Proof.
  intros M G. apply h_iter. intros t I. apply HP; [exact M|]. pose proof (good_children ok t_table data G) as C. rewrite Forall_forall in C. exact (C t I).
Qed.
Lemma sub_ok key : T key -> mok (mkMeta None (x_fig x ++ [95] ++ key) (Some (x_fig x))).
Proof.
  intros K. split; [apply oT_none|]. split; [|apply oT_some; exact fig_ok]. apply T_app; [exact fig_ok|]. apply T_app; [asc | exact K].
Qed.
Lemma sfield_ok r l b : rok r -> T l -> oT b -> sok (struct_field r l b).
Proof.
  intros R L B. split; [exact L|]. split; [exact R|]. cbn [struct_field sf_brief]. destruct b as [[|c b]|]; [apply oT_none | exact B | apply oT_none].
Qed.
Lemma special_ok c r f : T c -> rok r -> handle_special_case c r = Some f -> sok f.
Proof.
  intros C R. unfold handle_special_case. destruct (seqb c ELLIPSIS) eqn:E.
  - apply seqb_eq in E. subst c. intros [= <-]. apply sfield_ok; [exact R | exact C | apply oT_none].
  - destruct (seqb _ RESERVED); [intros [= <-]; apply sfield_ok; [exact R | asc | apply oT_none]|].
    destruct (seqb _ OBSOLETE); [intros [= <-]; apply sfield_ok; [exact R | asc | apply oT_none] | discriminate].
Qed.
Lemma ellipsis_ok s : T s -> startswith ELLIPSIS s = true -> T ELLIPSIS.
Proof.
  intros H. destruct H as [|c s C H]; [discriminate|]. cbn [ELLIPSIS startswith]. intros E. apply andb_true_iff in E as [E _].
  apply N.eqb_eq in E. subst c. constructor; [exact C | constructor].
Qed.
Lemma fields_ok row a b c d : good row -> extract_fields x row = Some (a, b, c, d) -> T a /\ T b /\ T c /\ good d.
Proof.
  intros G. unfold extract_fields, key_elem, content_elem, label_elem. destruct (nth_child t_td (x_key x) row) as [r|] eqn:R; [|discriminate].
  destruct (nth_child t_td (x_content x) row) as [q|] eqn:Q; [|discriminate]. destruct (nth_child t_td (x_label x) row) as [l|] eqn:L; [|discriminate].
  destruct (nth_child t_p 0 l) as [p|] eqn:P; [|discriminate]. intros [= <- <- <- <-].
  pose proof (good_nth ok _ _ _ _ G Q) as GQ. pose proof (good_nth ok _ _ _ _ (good_nth ok _ _ _ _ G L) P) as GP.
  repeat split; try (apply good_text); try assumption. exact (good_nth ok _ _ _ _ G R).
Qed.
Hypothesis HH : forall p fig, ec_handler (x_cls x) = HSplit p fig -> T fig.
Definition extra_ok (e : extra) : Prop := forall m t, e = Some (m, t) -> mok m /\ good t.
Lemma handler_ok y po ex : goody ok y -> row_err_handler (ec_handler (x_cls x)) y = (po, ex) -> extra_ok ex.
Proof.
  intros [GY GS]. unfold row_err_handler. destruct (ec_handler (x_cls x)) as [|p fig|suf] eqn:E.
  - destruct (children t_td (y_row y)) as [|? [|? ?]]; intros [= <- <-]; intros m t; discriminate.
  - destruct (startswith _ _); intros [= <- <-]; intros m t; [|discriminate]. intros [= <- <-]. split.
    + split; [|split; [exact (HH p fig eq_refl) | apply oT_none]]. cbn [m_title]. intros s. unfold extract_figure_title.
      destruct (contains _ _); [|discriminate]. intros [= <-]. apply good_text, GY.
    + apply good_iff. split; [constructor | exact GS].
  - destruct (endswith _ _); intros [= <- <-]; intros m t; discriminate.
Qed.
Lemma h_struct rows : Forall (goody ok) rows -> forall fin dyn fields, Forall sok fields ->
  holds (struct_loop parse x rows fin dyn fields) (fun p => Forall sok (fst p) /\ extra_ok (snd p)).
Proof.
  induction 1 as [|y rows Y H IH]; intros fin dyn fields F; cbn [struct_loop].
  - destruct fin; [apply h_throw | apply h_ret; split; [exact F | intros m t; discriminate]].
  - destruct (contains_th (y_row y)); [apply IH, F|]. destruct (extract_fields x (y_row y)) as [[[[a b] c] d]|] eqn:E.
    + destruct (fields_ok _ _ _ _ _ (proj1 Y) E) as (A & B & C & D). destruct (_ || _).
      * destruct (is_special_case a); [apply IH, F|]. apply (h_bind _ _ rok); [apply h_range; exact A|]. intros r R. apply IH.
        destruct (handle_special_case b r) as [f|] eqn:HS; [|exact F].
        apply Forall_app. split; [exact F | constructor; [exact (special_ok _ _ _ B R HS) | constructor]].
      * apply (h_bind _ _ rok); [apply h_if; [apply h_dynamic, A | apply h_range; exact A]|]. intros r R. cbv zeta.
        apply (h_bind _ _ T); [apply h_label; [exact C | apply key_ok, R]|]. intros l L.
        apply h_then; [apply h_sub; [apply sub_ok, key_ok, R | exact D]|]. apply IH.
        apply Forall_app. split; [exact F | constructor; [apply sfield_ok; [exact R | exact L | apply T_brief, B] | constructor]].
    + cbv zeta. assert (TY : T (lower (to_text (y_row y)))) by (apply T_lower; [exact CS | apply good_text, Y]).
      destruct (startswith ELLIPSIS _) eqn:EL.
      * apply IH. apply Forall_app. split; [exact F | constructor; [|constructor]].
        apply sfield_ok; [exact Logic.I | exact (ellipsis_ok _ TY EL) | apply oT_none].
      * destruct (startswith (utf8 "note") _); [apply h_ret; split; [exact F | intros m t; discriminate]|].
        destruct (row_err_handler _ y) as [po ex] eqn:RH. pose proof (handler_ok _ _ _ Y RH) as X.
        destruct po; [apply h_ret; split; [exact F | exact X] | apply IH, F | apply h_throw].
Qed.
Lemma field_range_ok f r : sok f -> field_range f = Some r -> rok r.
Proof.
  intros (_ & R & _). unfold field_range. destruct (seqb _ _); [discriminate|]. destruct (sf_range f); intros [= <-]; exact R.
Qed.
Lemma h_pairs fs : Forall sok fs -> forall labels prev, holds (pair_loop x labels prev fs) (fun _ => True).
Proof.
  induction 1 as [|f fs F H IH]; intros labels prev; cbn [pair_loop]; [apply h_ret; trivial|]. cbv zeta. apply h_then.
  - apply h_if; [|apply h_ret; trivial]. apply h_issue; [exact fig_ok | apply oT_some, key_ok; exact (proj1 (proj2 F)) | apply ctx_ok; [vm_compute; reflexivity | exact (proj1 F)]].
  - destruct (seqb _ ELLIPSIS); [apply IH|]. destruct (field_range f) as [cur|] eqn:E; [|apply IH].
    pose proof (key_ok _ (field_range_ok _ _ F E)) as K. apply h_then; [|apply IH].
    destruct prev as [p|]; [|apply h_ret; trivial]. destruct (high_int p); [|apply h_ret; trivial]. destruct (low_int cur); [|apply h_ret; trivial].
    apply h_if; [apply h_xissue, K|]. apply h_if; [apply h_xissue, K | apply h_ret; trivial].
Qed.
Lemma h_validate_struct fs : Forall sok fs -> holds (validate_struct x fs) (fun _ => True).
Proof.
  intros H. unfold validate_struct. destruct H as [|f fs F H]; [apply h_ret; trivial|]. destruct fs as [|g fs]; [apply h_ret; trivial|].
  apply h_if; [apply h_issue; [exact fig_ok | apply oT_none | constructor] | apply h_pairs, H].
Qed.
Lemma h_struct_call k tbl : good tbl -> holds (struct_call parse x k tbl) (fun _ => True).
Proof.
  intros G. unfold struct_call. destruct (row_iter tbl) as [rows fin] eqn:E.
  apply (h_bind _ _ _ _ (h_struct rows (iter_good ok _ _ _ G E) fin false [] (Forall_nil _))). intros [fs ex] [F X]. cbn [fst snd] in F, X.
  assert (F' : Forall sok (match k with KBits => List.rev fs | KBytes => fs end)) by (destruct k; [apply Forall_rev, F | exact F]).
  apply h_then; [apply h_validate_struct, F'|]. apply h_then; [apply h_emit; split; [exact HM | exact F']|].
  destruct ex as [[m t]|]; [apply HP; apply (X m t eq_refl) | apply h_ret; trivial].
Qed.

(** ** Value tables *)

Lemma h_dedicated row key : good row -> T key -> holds (extract_label_dedicated x row key) T.
Proof.
  intros G K. unfold extract_label_dedicated, label_elem. destruct (nth_child t_td (x_label x) row) as [td|] eqn:D; [|apply h_throw].
  destruct (nth_child t_p 0 td) as [p|] eqn:P; [|apply h_throw]. cbv zeta. apply h_if; [apply h_ret; asc|].
  assert (L : T (lower (to_text p))) by (apply T_lower; [exact CS | exact (good_text ok _ (good_nth ok _ _ _ _ (good_nth ok _ _ _ _ G D) P))]).
  pose proof (proj1 (T_split1 ok 58 _ L)) as H. destruct (split1 58 _) as [h t]. cbn [fst] in H. apply h_then.
  - destruct t; [apply h_ret; trivial | apply h_xissue, K].
  - apply h_ret, T_upper; [exact CS|]. apply T_replace; [asc | exact H].
Qed.
Lemma h_finish l key : T l -> T key -> holds (finish_value_label x l key) T.
Proof.
  intros L K. unfold finish_value_label. cbv zeta. assert (N : T (normalize_label (rearrange_num_label l))) by (apply T_normalize; [exact CS | apply T_rearrange; assumption]).
  apply h_then; [apply h_validate; assumption | apply h_ret, N].
Qed.
Lemma h_value_label row key data : good row -> good data -> T key -> holds (extract_value_label x row key data) T.
Proof.
  intros G D K. unfold extract_value_label. apply h_if.
  - apply (h_bind _ _ T); [apply h_dedicated; assumption|]. intros l L. apply h_if; [apply h_ret; asc | apply h_finish; assumption].
  - unfold extract_content. destruct (nth_child t_p 0 data) as [p|] eqn:P; [|apply h_then; [apply h_xissue, K | apply h_throw]].
    pose proof (good_text ok _ (good_nth ok _ _ _ _ D P)) as L. apply h_if; [apply h_ret; asc|]. apply (h_bind _ _ T).
    + destruct (grp_nonempty G_label _) as [l|] eqn:E; [apply h_ret, (grp_nonempty_ok ok _ _ _ _ L E) | apply h_then; [apply h_xissue, K | apply h_ret, L]].
    + intros l HL. apply h_finish; assumption.
Qed.
Lemma h_values fs : Forall vok fs -> forall labels values, holds (values_loop x labels values fs) (fun _ => True).
Proof.
  induction 1 as [|f fs F H IH]; intros labels values; cbn [values_loop]; [apply h_ret; trivial|]. destruct (smem _ [_; _]); [apply IH|].
  apply h_then; [|apply h_then; [|apply IH]]; apply h_if; try (apply h_ret; exact Logic.I).
  - apply h_issue; [exact fig_ok | apply oT_some; exact (proj1 F) | apply ctx_ok; [vm_compute; reflexivity | exact (proj1 (proj2 F))]].
  - apply h_xissue. exact (proj1 F).
Qed.
Variable ov : overrides.
Hypothesis HO : forall k l, In (k, l) ov -> T l.
Lemma override_ok fig v l : override_of ov fig v = Some l -> T l.
Proof.
  unfold override_of. destruct (find _ ov) as [[k l']|] eqn:E; [|discriminate]. intros [= <-]. apply find_some in E. exact (HO k l' (proj1 E)).
Qed.
Lemma h_value_loop rows : Forall (goody ok) rows -> forall fin fields, Forall vok fields ->
  holds (value_loop parse ov x rows fin fields) (Forall vok).
Proof.
  induction 1 as [|y rows Y H IH]; intros fin fields F; cbn [value_loop].
  - destruct fin; [apply h_throw | apply h_ret, F].
  - destruct (contains_th (y_row y)); [apply IH, F|]. cbv zeta.
    assert (TY : T (lower (to_text (y_row y)))) by (apply T_lower; [exact CS | apply good_text, Y]).
    assert (E : holds (if startswith ELLIPSIS (lower (to_text (y_row y))) then value_loop parse ov x rows fin (fields ++ [mkVField ELLIPSIS ELLIPSIS None])
      else if startswith (utf8 "notes:") (lower (to_text (y_row y))) then ret fields else value_loop parse ov x rows fin fields) (Forall vok)).
    { destruct (startswith ELLIPSIS _) eqn:EL.
      - apply IH, Forall_app. split; [exact F|]. pose proof (ellipsis_ok _ TY EL) as TE. constructor; [|constructor]. split; [exact TE|]. split; [exact TE | apply oT_none].
      - apply h_if; [apply h_ret, F | apply IH, F]. }
    unfold key_elem, content_elem in *. destruct (nth_child t_td (x_key x) (y_row y)) as [rv|] eqn:RV; [|exact E].
    destruct (nth_child t_td (x_content x) (y_row y)) as [rd|] eqn:RD; [|exact E]. clear E.
    assert (V : T (lower (to_text rv))) by (apply T_lower; [exact CS | exact (good_text ok _ (good_nth ok _ _ _ _ (proj1 Y) RV))]).
    pose proof (good_nth ok _ _ _ _ (proj1 Y) RD) as GD. destruct (seqb (lower (to_text rv)) ELLIPSIS) eqn:EL.
    + apply seqb_eq in EL. rewrite EL in V. apply IH, Forall_app. split; [exact F|]. constructor; [|constructor]. split; [exact V|]. split; [exact V | apply oT_none].
    + apply (h_bind _ _ T).
      * destruct (override_of ov (x_fig x) _) as [l|] eqn:O; [|apply h_value_label; [apply Y | exact GD | exact V]].
        apply h_then; [apply h_xissue, V | apply h_ret, (override_ok _ _ _ O)].
      * intros l L. apply h_then; [apply h_sub; [apply sub_ok, V | exact GD]|]. apply IH, Forall_app. split; [exact F|].
        constructor; [|constructor]. split; [exact V|]. split; [exact L | apply T_brief, good_text, GD].
Qed.
Lemma h_value_call tbl : good tbl -> holds (value_call parse ov x tbl) (fun _ => True).
Proof.
  intros G. unfold value_call. destruct (row_iter tbl) as [rows fin] eqn:E.
  apply (h_bind _ _ _ _ (h_value_loop rows (iter_good ok _ _ _ G E) fin [] (Forall_nil _))). intros fs F.
  apply h_then; [|apply h_emit; split; [exact HM | exact F]]. unfold validate_values. destruct F as [|f fs F1 F2]; [apply h_ret; trivial|].
  destruct fs as [|g fs]; [apply h_ret; trivial|]. apply h_values. constructor; assumption.
Qed.
End Table.

(** ** Figures *)

Definition handler_fine (c : ecls) : Prop := forall p fig, ec_handler c = HSplit p fig -> T fig.
Definition parser_fine (P : parser) : Prop :=
  (forall k l, In (k, l) (p_label_overrides P) -> T l) /\ forall fig c, In (fig, c) (p_fig_overrides P) -> handler_fine c.

Lemma h_map {A B} (f : A -> M B) (Q : B -> Prop) l : (forall a, In a l -> holds (f a) Q) -> holds (mapM f l) (Forall Q).
Proof.
  induction l as [|a l IH]; intros H; cbn [mapM]; [apply h_ret; constructor|]. apply (h_bind _ _ Q); [apply H; left; reflexivity|]. intros b HB.
  apply (h_bind _ _ (Forall Q)); [apply IH; intros c I; apply H; right; exact I|]. intros bs HBS. apply h_ret. constructor; assumption.
Qed.
Lemma h_hdr fig h : T fig -> T h -> holds (normalize_hdr fig h) T.
Proof.
  intros F H. unfold normalize_hdr. cbv zeta. pose proof (T_clean ok CS h H) as C.
  destruct (find _ tbl_normalize_mappings) as [[k r]|] eqn:E; [|apply h_ret, C]. apply find_some in E as [E _].
  assert (R : T r) by (destruct E as [[= <- <-]|[[= <- <-]|[[= <- <-]|[]]]]; asc).
  apply h_then; [|apply h_ret, R]. apply h_issue; [exact F | apply oT_none|]. mem; [constructor; exact C|]. mem; [constructor; exact R | constructor].
Qed.
Lemma h_headers fig tbl : T fig -> good tbl -> holds (extract_tbl_headers fig tbl) (Forall T).
Proof.
  intros F G. apply h_map. intros e I. unfold hdr_cells in I. destruct (nth_child t_tr 0 tbl) as [tr|] eqn:E; [|destruct I].
  apply in_map_iff in I as [k [<- I]]. pose proof (good_kids ok _ (good_nth ok _ _ _ _ G E)) as K. rewrite Forall_forall in K.
  apply h_hdr; [exact F|]. apply T_strip, T_lower; [exact CS | apply good_text, (K k I)].
Qed.
Lemma selected_fine hdrs c mp : select_extractor extractors hdrs = Some (c, mp) -> handler_fine c.
Proof.
  unfold extractors. cbn [select_extractor]. intros H p fig E.
  destruct (can_apply BytesTableExtractor hdrs); [injection H as <- <-; discriminate E|].
  destruct (can_apply ValueTableExtractor hdrs); [injection H as <- <-; discriminate E|].
  destruct (can_apply BitsTableExtractor hdrs); [injection H as <- <-; discriminate E | discriminate H].
Qed.
Section Parser.
Variable P : parser.
Hypothesis PF : parser_fine P.
Lemma h_error m e : mok m -> holds (on_fig_error P m e) (fun _ => True).
Proof.
  intros M. unfold on_fig_error. apply (h_bind _ _ (fun _ => True)); [intros f; split; [constructor | trivial]|]. intros u _. apply h_then.
  - apply h_if; [apply h_ret; trivial|]. apply h_then; [intros f; split; [constructor | trivial]|]. apply h_issue; [exact (proj1 (proj2 M)) | apply oT_none|].
    destruct (m_title m) as [t|] eqn:E; [|constructor]. apply ctx_ok; [vm_compute; reflexivity | exact (proj1 M t E)].
  - destruct (m_parent m); [apply h_throw|]. apply h_if; [apply h_ret; trivial | apply h_throw].
Qed.
Lemma h_fig fuel : forall m tbl, mok m -> good tbl -> holds (on_parse_fig fuel P m tbl) (fun _ => True).
Proof.
  induction fuel as [|n IH]; intros m tbl M G; cbn [on_parse_fig]; [intros f; split; [constructor | discriminate]|].
  apply h_then; [intros f; split; [constructor | trivial]|]. apply (h_bind _ _ (Forall T)); [apply h_headers; [exact (proj1 (proj2 M)) | exact G]|]. intros hdrs HD.
  assert (R : forall c mp run, handler_fine c -> run_extractor (on_parse_fig n P) P m tbl hdrs c mp = Some run -> holds (catch run (on_fig_error P m)) (fun _ => True)).
  { intros c mp run HF. unfold run_extractor. destruct (col_index _ _ _ _); [|discriminate]. destruct (col_index _ _ _ _); [|discriminate].
    destruct (col_index _ _ _ _); [|discriminate]. intros [= <-]. apply h_catch; [|intros e; apply h_error, M].
    destruct (ec_kind c); [apply h_struct_call | apply h_value_call]; try assumption. apply PF. }
  destruct (lookup_fig (p_fig_overrides P) (m_fig m)) as [c|] eqn:LF.
  - assert (HF : handler_fine c). { unfold lookup_fig in LF. destruct (find _ _) as [[k c']|] eqn:E; [|discriminate]. injection LF as <-.
      apply find_some in E. exact (proj2 PF k c' (proj1 E)). }
    destruct (can_apply c hdrs) as [mp|]; [|apply h_throw]. destruct (run_extractor _ _ _ _ _ c mp) as [run|] eqn:E; [exact (R c mp run HF E) | apply h_throw].
  - destruct (select_extractor extractors hdrs) as [[c mp]|] eqn:SE.
    + destruct (run_extractor _ _ _ _ _ c mp) as [run|] eqn:E; [exact (R c mp run (selected_fine _ _ _ SE) E) | apply h_throw].
    + apply h_issue; [exact (proj1 (proj2 M)) | apply oT_none|]. mem; [|constructor]. constructor. rewrite Forall_forall in *. intros j I.
      apply in_map_iff in I as [h [<- I]]. constructor. apply HD, I.
Qed.
Lemma unwrap_good t : good t -> good (unwrap_table t).
Proof.
  intros G. unfold unwrap_table. destruct (nth_child t_tr 0 t) as [tr|] eqn:E1; [|exact G]. destruct (nth_child t_td 0 tr) as [td|] eqn:E2; [|exact G].
  pose proof (good_kids ok _ (good_nth ok _ _ _ _ (good_nth ok _ _ _ _ G E1) E2)) as K. destruct K as [|[e s] ks [K _] _]; [exact G|].
  destruct (seqb (e_tag e) t_table); [exact K | exact G].
Qed.
Lemma remove_good ks : Forall (goodk ok) ks -> Forall (goodk ok) (remove_first_tr ks).
Proof. induction 1 as [|k ks K H IH]; cbn [remove_first_tr]; [constructor|]. destruct (seqb _ _); [exact H | constructor; assumption]. Qed.
Lemma drop_good t : good t -> good (drop_title_row t).
Proof.
  destruct t as [n a s ks]. intros G. apply good_iff in G as [A B]. unfold drop_title_row. cbn [e_tag e_attrs e_text e_kids]. apply good_iff.
  split; [exact A | apply remove_good, B].
Qed.
Lemma h_tables tbls : Forall good tbls -> forall n, holds (parse_tables P n tbls) (fun _ => True).
Proof.
  induction 1 as [|t tbls G H IH]; intros n; cbn [parse_tables]; [apply h_ret; trivial|]. unfold classify.
  pose proof (unwrap_good t G) as U. destruct (nth_child t_tr 0 (unwrap_table t)) as [tr|] eqn:E; [|apply h_throw].
  unfold extract_figure_title. cbv zeta. destruct (contains _ _); [|apply IH].
  pose proof (good_text ok _ (good_nth ok _ _ _ _ U E)) as TT. unfold figure_id. destruct (grp G_id _) as [id|] eqn:ID.
  - apply h_then; [|apply IH]. apply h_fig; [|apply drop_good, U]. split; [apply oT_some, TT|]. split; [exact (grp_ok ok _ _ _ _ TT ID) | apply oT_none].
  - apply h_then; [|apply IH]. apply h_issue; [|apply oT_none | apply ctx_ok; [vm_compute; reflexivity | exact TT]].
    unfold missing_name. apply T_app; [asc|]. apply T_app; [apply (T_N ok CS) | asc].
Qed.
Lemma figures_good doc : good doc -> Forall good (figures doc).
Proof.
  intros G. unfold figures. pose proof (good_children ok t_body doc G) as B. rewrite Forall_forall in *. intros t I. apply in_flat_map in I as [b [I J]].
  pose proof (good_children ok t_table b (B b I)) as C. rewrite Forall_forall in C. exact (C t J).
Qed.
Lemma doc_ok doc r evs : good doc -> parse_doc P doc = (r, evs) -> Forall eok evs.
Proof.
  intros G. unfold parse_doc. pose proof (h_tables (figures doc) (figures_good doc G) 0 false) as [H _].
  destruct (parse_tables P 0 (figures doc) false) as [[r' f] t]. intros [= <- <-]. exact H.
Qed.
End Parser.
End Flow.
