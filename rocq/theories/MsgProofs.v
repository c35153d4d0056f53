(** Proofs about the messages logged while a document is processed. *)
From Coq Require Import NArith ZArith List Bool String Lia ZifyBool ZifyN.
From Verif Require Import PyStr PyStrFacts Regex Regexes Xml Json JsonText SpecJson Lint RowIter Helpers Extract Document Output
  MFacts SpecLog SpecHeader SpecTable SpecDoc SpecRun DocProofs Messages SpecMsg.
Import ListNotations.
Local Open Scope list_scope.
Local Open Scope N_scope.
Arguments N.mul : simpl never.
Arguments N.add : simpl never.
Arguments N.div : simpl never.
Arguments N.modulo : simpl never.

(** ** Literals *)

Lemma hex_digit_ok n : n < 16 -> hexdigit (hex_digit n) n.
Proof. intros H. unfold hexdigit, hex_digit. destruct (n <? 10) eqn:E; [left | right; left]; lia. Qed.
Lemma hex4_ok n : n < 65536 -> hex16 (hex4 n) n.
Proof.
  intros H. exists (hex_digit (n / 4096)), (hex_digit (n / 256 mod 16)), (hex_digit (n / 16 mod 16)), (hex_digit (n mod 16)),
    (n / 4096), (n / 256 mod 16), (n / 16 mod 16), (n mod 16).
  pose proof (N.div_mod n 16 ltac:(discriminate)). pose proof (N.div_mod (n / 16) 16 ltac:(discriminate)).
  pose proof (N.div_mod (n / 256) 16 ltac:(discriminate)).
  rewrite N.div_div in * by discriminate. change (16 * 16) with 256 in *. change (256 * 16) with 4096 in *.
  pose proof (N.mod_lt n 16 ltac:(discriminate)). pose proof (N.mod_lt (n / 16) 16 ltac:(discriminate)).
  pose proof (N.mod_lt (n / 256) 16 ltac:(discriminate)).
  repeat split; try reflexivity; try (apply hex_digit_ok; lia). lia.
Qed.
Lemma x_digits_ok n : n < 256 -> exists a b x y, x_digits n = [a; b] /\ hexdigit a x /\ hexdigit b y /\ n = x * 16 + y.
Proof.
  intros H. exists (hex_digit (n / 16)), (hex_digit (n mod 16)), (n / 16), (n mod 16). split; [reflexivity|].
  pose proof (N.div_mod n 16 ltac:(discriminate)). pose proof (N.mod_lt n 16 ltac:(discriminate)).
  repeat split; try (apply hex_digit_ok; lia). lia.
Qed.
Lemma repr_char_ok printable q c t s : q = 39 \/ q = 34 -> c < 1114112 -> denotes q t s ->
  denotes q (repr_char printable q c ++ t) (c :: s).
Proof.
  intros Q H D. unfold repr_char.
  assert (X : c < 256 -> denotes q ((92 :: 120 :: x_digits c) ++ t) (c :: s)).
  { intros B. destruct (x_digits_ok c B) as (a & b & x & y & -> & A & A' & E). cbn [app]. rewrite E. apply dn_x; assumption. }
  destruct ((c =? q) || (c =? 92)) eqn:E1. { apply dn_quoted; [lia | exact D]. }
  assert (c <> q /\ c <> 92) as [N1 N2] by lia.
  destruct (c =? 9) eqn:E2. { apply N.eqb_eq in E2 as ->. apply dn_tab, D. }
  destruct (c =? 10) eqn:E3. { apply N.eqb_eq in E3 as ->. apply dn_line, D. }
  destruct (c =? 13) eqn:E4. { apply N.eqb_eq in E4 as ->. apply dn_return, D. }
  destruct ((c <? 32) || (c =? 127)) eqn:E5. { apply X. lia. }
  destruct (c <? 127). { apply dn_plain; assumption. }
  destruct (printable c). { apply dn_plain; assumption. }
  destruct (c <? 256) eqn:E6. { apply X. lia. }
  destruct (c <? 65536) eqn:E7. { cbn [app]. apply dn_u; [apply hex4_ok; lia | exact D]. }
  cbn [app]. rewrite <- app_assoc.
  replace (c :: s) with (c / 65536 * 65536 + c mod 65536 :: s).
  - apply dn_U; [apply hex4_ok | apply hex4_ok | exact D].
    + apply N.div_lt_upper_bound; [discriminate | lia].
    + apply N.mod_lt. discriminate.
  - f_equal. rewrite N.mul_comm. symmetry. apply N.div_mod. discriminate.
Qed.
Lemma repr_str_ok printable s : unicode s -> literal (repr_str printable s) s.
Proof.
  intros U. exists (repr_quote s), (flat_map (repr_char printable (repr_quote s)) s).
  assert (Q : repr_quote s = 39 \/ repr_quote s = 34) by (unfold repr_quote; destruct (_ && _); auto).
  split; [exact Q|]. split; [reflexivity|].
  generalize dependent (repr_quote s). intros q Q. induction U as [|c s U1 U IH]; [constructor|].
  apply repr_char_ok; assumption.
Qed.
Lemma repr_meta_ok printable m : unicode_meta m -> describes (repr_meta printable m) m.
Proof.
  intros (U1 & U2 & U3). unfold describes, repr_meta.
  do 3 eexists. split; [reflexivity|]. split; [apply repr_str_ok, U1|]. split.
  - destruct (m_title m) as [t|]; [|reflexivity]. eexists. split; [reflexivity|]. apply repr_str_ok, U2. reflexivity.
  - destruct (m_parent m) as [t|]; [|reflexivity]. eexists. split; [reflexivity|]. apply repr_str_ok, U3. reflexivity.
Qed.

(** A literal stands for one string. *)
Lemma hexdigit_det c x y : hexdigit c x -> hexdigit c y -> x = y.
Proof. unfold hexdigit. lia. Qed.
Lemma hex16_det h h' n n' r r' : hex16 h n -> hex16 h' n' -> h ++ r = h' ++ r' -> n = n' /\ r = r'.
Proof.
  intros (a & b & c & d & a1 & b1 & c1 & d1 & -> & A & B & C & D & ->)
         (a2 & b2 & c2 & d2 & a3 & b3 & c3 & d3 & -> & A' & B' & C' & D' & ->) E.
  cbn [app] in E. injection E as -> -> -> -> ->.
  rewrite (hexdigit_det _ _ _ A A'), (hexdigit_det _ _ _ B B'), (hexdigit_det _ _ _ C C'), (hexdigit_det _ _ _ D D').
  split; reflexivity.
Qed.
Lemma denotes_det q b s : q = 39 \/ q = 34 -> denotes q b s -> forall b' s' r r', denotes q b' s' ->
  b ++ q :: r = b' ++ q :: r' -> s = s' /\ r = r'.
Proof.
  intros Q D. induction D as [|c t s N1 N2 D IH|c t s C D IH|t s D IH|t s D IH|t s D IH|a b x y t s A B D IH
    |h n t s Hh D IH|h h' n n' t s Hh Hh' D IH]; intros b' s' r r' D' E;
  destruct D' as [|c1 t1 s1 N1' N2' D'|c1 t1 s1 C' D'|t1 s1 D'|t1 s1 D'|t1 s1 D'|a1 b1 x1 y1 t1 s1 A' B' D'
    |h1 n1 t1 s1 Hh1 D'|h1 h1' n1 n1' t1 s1 Hh1 Hh1' D'];
  rewrite <- ?app_assoc in E; cbn [app] in E;
  try (injection E; intros; subst; lia);
  try (injection E; intros; lia).
  - injection E as E. split; [reflexivity | exact E].
  - injection E as -> E. destruct (IH _ _ _ _ D' E) as [-> ->]. split; reflexivity.
  - injection E as -> E. destruct (IH _ _ _ _ D' E) as [-> ->]. split; reflexivity.
  - injection E as E. destruct (IH _ _ _ _ D' E) as [-> ->]. split; reflexivity.
  - injection E as E. destruct (IH _ _ _ _ D' E) as [-> ->]. split; reflexivity.
  - injection E as E. destruct (IH _ _ _ _ D' E) as [-> ->]. split; reflexivity.
  - injection E as -> -> E. destruct (IH _ _ _ _ D' E) as [-> ->].
    rewrite (hexdigit_det _ _ _ A A'), (hexdigit_det _ _ _ B B'). split; reflexivity.
  - injection E as E. rewrite <- ?app_assoc in E. destruct (hex16_det _ _ _ _ _ _ Hh Hh1 E) as [-> E'].
    destruct (IH _ _ _ _ D' E') as [-> ->]. split; reflexivity.
  - injection E as E. rewrite <- ?app_assoc in E. destruct (hex16_det _ _ _ _ _ _ Hh Hh1 E) as [-> E'].
    destruct (hex16_det _ _ _ _ _ _ Hh' Hh1' E') as [-> E''].
    destruct (IH _ _ _ _ D' E'') as [-> ->]. split; reflexivity.
Qed.
Lemma literal_det t s t' s' r r' : literal t s -> literal t' s' -> t ++ r = t' ++ r' -> s = s' /\ r = r'.
Proof.
  intros (q & b & Q & -> & D) (q' & b' & Q' & -> & D') E. cbn [app] in E. rewrite <- !app_assoc in E.
  injection E as <- E. cbn [app] in E. exact (denotes_det q b s Q D b' s' r r' D' E).
Qed.
Lemma literal_quote t s : literal t s -> exists q r, t = q :: r /\ (q = 39 \/ q = 34).
Proof. intros (q & b & Q & -> & _). eauto. Qed.

(** A description says which figure it is. *)
Lemma describes_det t m m' : describes t m -> describes t m' -> m = m'.
Proof.
  unfold describes.
  assert (T : forall x y, utf8 "'title': " ++ x = utf8 "'fig_id': " ++ y -> False) by (intros x y [=]).
  assert (U : forall x, (utf8 ", 'parent_fig_id': " ++ x) ++ utf8 "}" = utf8 "}" -> False) by (intros x [=]).
  generalize dependent (utf8 "'title': "). generalize dependent (utf8 "'fig_id': ").
  generalize dependent (utf8 ", 'parent_fig_id': "). generalize dependent (utf8 "}").
  generalize (utf8 "{") (utf8 ", "). intros open sep close k_parent U k_fig k_title T.
  intros (a & b & c & E0 & B & A & C) (a' & b' & c' & E & B' & A' & C').
  destruct m as [ti fi pa], m' as [ti' fi' pa']. cbn [m_title m_fig m_parent] in *.
  rewrite E0 in E. apply app_inv_head in E. clear E0.
  assert (K : ti = ti' /\ k_fig ++ b ++ c ++ close = k_fig ++ b' ++ c' ++ close).
  { destruct ti as [s|], ti' as [s'|].
    - destruct A as (l & -> & A), A' as (l' & -> & A'). rewrite <- !app_assoc in E. apply app_inv_head in E.
      destruct (literal_det _ _ _ _ _ _ A A' E) as [-> E']. apply app_inv_head in E'. split; [reflexivity | exact E'].
    - exfalso. destruct A as (l & -> & A). rewrite A', <- !app_assoc in E. exact (T _ _ E).
    - exfalso. destruct A' as (l & -> & A'). rewrite A, <- !app_assoc in E. symmetry in E. exact (T _ _ E).
    - subst. split; [reflexivity | exact E]. }
  destruct K as [-> E2]. apply app_inv_head in E2. destruct (literal_det _ _ _ _ _ _ B B' E2) as [-> E3]. f_equal.
  destruct pa as [s|], pa' as [s'|].
  - destruct C as (l & -> & C), C' as (l' & -> & C'). rewrite <- !app_assoc in E3. apply app_inv_head in E3.
    destruct (literal_det _ _ _ _ _ _ C C' E3) as [-> _]. reflexivity.
  - exfalso. destruct C as (l & -> & C). rewrite C' in E3. exact (U _ E3).
  - exfalso. destruct C' as (l & -> & C'). rewrite C in E3. symmetry in E3. exact (U _ E3).
  - reflexivity.
Qed.

(** ** The messages change nothing else *)

Lemma done_app a b : done (a ++ b) = done a ++ done b.
Proof. unfold done. apply flat_map_app. Qed.
Lemma said_app a b : said (a ++ b) = said a ++ said b.
Proof. unfold said. apply flat_map_app. Qed.
Lemma done_did t : done (map Did t) = t.
Proof. induction t as [|e t IH]; [reflexivity|]. cbn. f_equal. exact IH. Qed.
Lemma said_did t : said (map Did t) = [].
Proof. induction t as [|e t IH]; [reflexivity|]. exact IH. Qed.

Definition same {A} (l : L A) (m : M A) : Prop := forall f, m f = (fst (fst (l f)), snd (fst (l f)), done (snd (l f))).
Lemma same_lift {A} (m : M A) : same (lift m) m.
Proof. intros f. unfold lift. destruct (m f) as [[r f'] t]. cbn. rewrite done_did. reflexivity. Qed.
Lemma same_ret {A} (a : A) : same (lret a) (ret a).
Proof. intros f. reflexivity. Qed.
Lemma same_throw {A} e : same (@lthrow A e) (throw e).
Proof. intros f. reflexivity. Qed.
Lemma same_bind {A B} (l : L A) m (k : A -> L B) k' : same l m -> (forall a, same (k a) (k' a)) -> same (lbind l k) (bind m k').
Proof.
  intros H K f. unfold lbind, bind. rewrite (H f). destruct (l f) as [[[a|e|] f1] t1]; cbn; try reflexivity.
  rewrite (K a f1). destruct (k a f1) as [[r f2] t2]. cbn. rewrite done_app. reflexivity.
Qed.
Lemma same_say {A} g (l : L A) m : same l m -> same (lbind (say g) (fun _ => l)) m.
Proof. intros H f. rewrite (H f). unfold lbind, say. destruct (l f) as [[r f'] t]. reflexivity. Qed.
Lemma same_catch l m h h' : same l m -> (forall e, same (h e) (h' e)) -> same (lcatch l h) (catch m h').
Proof.
  intros H K f. unfold lcatch, catch. rewrite (H f). destruct (l f) as [[[a|e|] f1] t1]; cbn; try reflexivity.
  rewrite (K e f1). destruct (h e f1) as [[r f2] t2]. cbn. rewrite done_app. reflexivity.
Qed.
Lemma same_iter {A} (p : A -> L unit) q l : (forall a, same (p a) (q a)) -> same (literM p l) (iterM q l).
Proof. intros H. induction l as [|a l IH]; [apply same_ret|]. cbn. apply same_bind; [apply H | intros _; exact IH]. Qed.

Section Same.
Variable printable : N -> bool.
Variables spec revision : str.
Variable qualname : ecls -> str.

Lemma same_label x t k : same (log_parse_label spec revision qualname x t k) (parse_label x t k).
Proof.
  intros f. unfold log_parse_label, lcatch. pose proof (same_lift (parse_label x t k) f) as H.
  destruct (lift (parse_label x t k) f) as [[[a|e|] f1] t1]; cbn in *; try exact H.
  rewrite done_app. cbn. rewrite app_nil_r. exact H.
Qed.
Lemma same_struct_loop p q x : (forall m t, same (p m t) (q m t)) -> forall rows fin dyn fs,
  same (log_struct_loop spec revision qualname p x rows fin dyn fs) (struct_loop q x rows fin dyn fs).
Proof.
  intros H rows fin. induction rows as [|y rows IH]; intros dyn fs; cbn [log_struct_loop struct_loop].
  - destruct fin; [apply same_throw | apply same_ret].
  - destruct (contains_th (y_row y)); [apply IH|].
    destruct (extract_fields x (y_row y)) as [[[[rt ct] lt] c]|].
    + destruct (_ || _).
      * destruct (is_special_case rt); [apply IH|]. apply same_bind; [apply same_lift | intros r; apply IH].
      * apply same_bind; [apply same_lift|]. intros r. apply same_bind; [apply same_label|]. intros l.
        apply same_bind; [|intros _; apply IH]. apply same_iter. intros t. apply H.
    + destruct (startswith ELLIPSIS _); [apply IH|]. destruct (startswith (utf8 "note") _); [apply same_ret|].
      destruct (row_err_handler _ y) as [[| |] ex]; [apply same_ret | apply IH | apply same_say, same_throw].
Qed.
Lemma same_value_loop p q ov x : (forall m t, same (p m t) (q m t)) -> forall rows fin fs,
  same (log_value_loop p ov x rows fin fs) (value_loop q ov x rows fin fs).
Proof.
  intros H rows fin. induction rows as [|y rows IH]; intros fs; cbn [log_value_loop value_loop].
  - destruct fin; [apply same_throw | apply same_ret].
  - destruct (contains_th (y_row y)); [apply IH|].
    assert (K : same
      (if startswith ELLIPSIS (lower (to_text (y_row y)))
       then log_value_loop p ov x rows fin (fs ++ [mkVField ELLIPSIS ELLIPSIS None])
       else if startswith (utf8 "notes:") (lower (to_text (y_row y))) then lret fs
            else log_value_loop p ov x rows fin fs)
      (if startswith ELLIPSIS (lower (to_text (y_row y)))
       then value_loop q ov x rows fin (fs ++ [mkVField ELLIPSIS ELLIPSIS None])
       else if startswith (utf8 "notes:") (lower (to_text (y_row y))) then ret fs
            else value_loop q ov x rows fin fs)).
    { destruct (startswith ELLIPSIS _); [apply IH|]. destruct (startswith (utf8 "notes:") _); [apply same_ret | apply IH]. }
    destruct (key_elem x (y_row y)) as [v|]; [|exact K]. destruct (content_elem x (y_row y)) as [c|]; [|exact K].
    destruct (seqb _ ELLIPSIS); [apply IH|]. apply same_bind; [apply same_lift|]. intros l.
    apply same_bind; [|intros _; apply IH]. apply same_iter. intros t. apply H.
Qed.
Lemma same_extractor p q P m tbl hs c mp : (forall m t, same (p m t) (q m t)) ->
  match log_run_extractor spec revision qualname p P m tbl hs c mp, run_extractor q P m tbl hs c mp with
  | Some l, Some n => same l n
  | None, None => True
  | _, _ => False
  end.
Proof.
  intros H. unfold log_run_extractor, run_extractor. destruct (col_index hs (mp_key mp) 0 None); [|exact Logic.I].
  destruct (col_index hs (mp_label mp) 0 None); [|exact Logic.I]. destruct (col_index hs (mp_content mp) 0 None); [|exact Logic.I].
  destruct (ec_kind c) as [k|].
  - unfold log_struct_call, struct_call. destruct (row_iter tbl) as [rows fin].
    apply same_bind; [apply same_struct_loop, H|]. intros [fs ex].
    apply same_bind; [apply same_lift|]. intros _. apply same_bind; [apply same_lift|]. intros _.
    destruct ex as [[m' t]|]; [apply H | apply same_ret].
  - unfold log_value_call, value_call. destruct (row_iter tbl) as [rows fin].
    apply same_bind; [apply same_value_loop, H|]. intros fs. apply same_bind; [apply same_lift|]. intros _. apply same_lift.
Qed.
Lemma same_error P m c e : same (log_fig_error printable spec revision qualname P m c e) (on_fig_error P m e).
Proof.
  intros f. unfold log_fig_error, on_fig_error, lbind, lift, bind, get_flag, set_flag, say.
  destruct f; cbn -[add_issue].
  - destruct (m_parent m); [reflexivity|]. destruct (p_skip P); reflexivity.
  - destruct (add_issue T1000 _ _ _ true) as [[[a|e'|] f'] t]; cbn -[add_issue]; rewrite ?done_did; try reflexivity.
    destruct (m_parent m); [|destruct (p_skip P)]; cbn; rewrite done_app, done_did; reflexivity.
Qed.
Lemma same_figure n P : forall m tbl,
  same (log_parse_fig printable spec revision qualname n P m tbl) (on_parse_fig n P m tbl).
Proof.
  induction n as [|n IH]; intros m tbl; cbn [log_parse_fig on_parse_fig]; [intros f; reflexivity|].
  apply same_bind; [apply same_lift|]. intros _. apply same_bind; [apply same_lift|]. intros hs.
  assert (R : forall c mp, same
     match log_run_extractor spec revision qualname (log_parse_fig printable spec revision qualname n P) P m tbl hs c mp with
     | Some run => lcatch run (log_fig_error printable spec revision qualname P m c)
     | None => lthrow EKeyError
     end
     match run_extractor (on_parse_fig n P) P m tbl hs c mp with
     | Some run => catch run (on_fig_error P m)
     | None => throw EKeyError
     end).
  { intros c mp. pose proof (same_extractor _ _ P m tbl hs c mp IH) as S.
    destruct (log_run_extractor _ _ _ _ _ _ _ _ _ _), (run_extractor _ _ _ _ _ _ _); try contradiction.
    - apply same_catch; [exact S|]. intros e. apply same_error.
    - apply same_throw. }
  destruct (lookup_fig _ _) as [c|].
  - destruct (can_apply c hs); [apply R | apply same_throw].
  - destruct (select_extractor extractors hs) as [[c mp]|]; [apply R | apply same_lift].
Qed.
Lemma same_tables P : forall tbls n,
  same (log_tables printable spec revision qualname P n tbls) (parse_tables P n tbls).
Proof.
  induction tbls as [|t tbls IH]; intros n; cbn [log_tables parse_tables]; [apply same_ret|].
  destruct (classify t) as [| |title|m tbl]; [apply same_throw | apply IH | |].
  - apply same_say. apply same_bind; [apply same_lift|]. intros _. apply IH.
  - apply same_bind; [apply same_figure|]. intros _. apply IH.
Qed.
Lemma log_doc_same P doc : parse_doc P doc
  = (fst (log_doc printable spec revision qualname P doc), done (snd (log_doc printable spec revision qualname P doc))).
Proof.
  unfold parse_doc, log_doc. pose proof (same_tables P (figures doc) 0 false) as H.
  destruct (log_tables _ _ _ _ _ _ _ _) as [[r f] t]. rewrite H. reflexivity.
Qed.
End Same.
