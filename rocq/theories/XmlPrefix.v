(** An XML document cannot be continued: only by white space. *)
From Coq Require Import NArith ZArith List Bool String Lia.
From Coq Require Import ZifyBool ZifyN ZifyNat.
From Verif Require Import PyStr PyStrFacts Xml SpecXml XmlProofs.
Import ListNotations.
Local Open Scope string_scope.
Local Open Scope list_scope.
Local Open Scope N_scope.

(** What the reader makes of the root and what follows it. *)
Lemma root_then t root : xcontent t [] [(root, [])] -> forall rest f, (List.length t <= f)%nat ->
  read_content (S f) (t ++ rest) = match read_content f rest with Some (x, ks, r) => Some ([], (root, x) :: ks, r) | None => None end.
Proof.
  intros H rest f L. inversion H as [| | | | |tag w a b s x ks XN XA ND SB C|tag w a b body bx bks b' s x ks XN XA ND SB CB SB' C]; subst.
  - rewrite (xcontent_empty _ _ C eq_refl) in *. destruct (xname_cons tag XN) as (d & n' & EN & D1 & D2 & D3 & _ & D5). cbn [app]. repeat rewrite <- app_assoc. cbn [app read_content].
    change (60 =? 38) with false. change (60 =? 60) with true. cbn iota.
    destruct (take_run name_charb tag (w ++ b ++ 47 :: 62 :: rest) (xname_run tag XN)) as [R1 R2].
    { apply (xattrs_ends _ _ _ XA). apply spaces_ends_name; [exact SB | reflexivity]. }
    pose proof (xattrs_length _ _ XA) as LA.
    assert (RA := read_attrs_ok w a XA b 47 (62 :: rest) (S (List.length (tag ++ w ++ b ++ 47 :: 62 :: rest))) SB (or_intror eq_refl)).
    rewrite EN in *. cbn [app] in *. rewrite (proj2 (N.eqb_neq _ _) D3), D5. cbn [negb]. cbn zeta. rewrite R1, R2, RA by (cbn [List.length]; rewrite !app_length; lia).
    rewrite (proj2 (distinct_iff _) ND). cbn [negb]. change (62 =? 62) with true. cbn [negb]. change (47 =? 47) with true. cbn iota. reflexivity.
  - rewrite (xcontent_empty _ _ C eq_refl) in *. destruct (xname_cons tag XN) as (d & n' & EN & D1 & D2 & D3 & _ & D5). repeat (progress (cbn [app]; rewrite <- ?app_assoc)). cbn [read_content].
    change (60 =? 38) with false. change (60 =? 60) with true. cbn iota.
    set (tl := body ++ 60 :: 47 :: tag ++ b' ++ 62 :: rest).
    destruct (take_run name_charb tag (w ++ b ++ 62 :: tl) (xname_run tag XN)) as [R1 R2].
    { apply (xattrs_ends _ _ _ XA). apply spaces_ends_name; [exact SB | reflexivity]. }
    destruct (take_run name_charb tag (b' ++ 62 :: rest) (xname_run tag XN)) as [R3 R4].
    { apply spaces_ends_name; [exact SB' | reflexivity]. }
    pose proof (xattrs_length _ _ XA) as LA.
    assert (RA := read_attrs_ok w a XA b 62 tl (S (List.length (tag ++ w ++ b ++ 62 :: tl))) SB (or_introl eq_refl)).
    assert (LL : (List.length body < f)%nat) by (repeat (progress (rewrite ?app_length in L; cbn [List.length app] in L)); lia).
    assert (RB := read_content_ok _ _ _ CB (60 :: 47 :: tag ++ b' ++ 62 :: rest) f (or_intror (ex_intro _ _ eq_refl)) LL). fold tl in RB.
    clearbody tl. rewrite EN in *. cbn [app] in *. rewrite (proj2 (N.eqb_neq _ _) D3), D5. cbn [negb]. cbn zeta. rewrite R1, R2, RA by (cbn [List.length]; rewrite !app_length; lia).
    rewrite (proj2 (distinct_iff _) ND). cbn [negb]. change (62 =? 47) with false. cbn iota. rewrite RB. rewrite R3, R4. rewrite (proj2 (seqb_eq (d :: n') (d :: n')) eq_refl). change ((60 =? 60) && (47 =? 47) && true) with true. cbn [negb]. destruct (take_run spaceb b' (62 :: rest)) as [_ ->]; [apply spaces_run; exact SB' | reflexivity|].
    change (62 =? 62) with true. cbn [negb]. reflexivity.
Qed.

(** Without the document type declaration. *)
Definition undoctype (s : str) : str :=
  drop_while spaceb (skipn 1 (drop_while spaceb (drop_while name_charb (drop_while spaceb (skipn 9 s))))).
Lemma undoctype_eq b1 n b2 b3 t : spaces b1 -> xname n -> spaces b2 -> spaces b3 -> (exists t', t = 60 :: t') ->
  undoctype (utf8 "<!DOCTYPE" ++ b1 ++ n ++ b2 ++ [62] ++ b3 ++ t) = t.
Proof.
  intros S1 XN S2 S3 (t' & ET). unfold undoctype.
  change (skipn 9 (utf8 "<!DOCTYPE" ++ b1 ++ n ++ b2 ++ [62] ++ b3 ++ t)) with (b1 ++ n ++ b2 ++ [62] ++ b3 ++ t).
  destruct (xname_cons n XN) as (d & n' & EN & D1 & _).
  destruct (take_run spaceb b1 (n ++ b2 ++ [62] ++ b3 ++ t)) as [_ ->]; [apply spaces_run; exact S1 | rewrite EN; exact D1|].
  destruct (take_run name_charb n (b2 ++ [62] ++ b3 ++ t)) as [_ ->]; [apply xname_run; exact XN | apply spaces_ends_name; [exact S2 | reflexivity]|].
  destruct (take_run spaceb b2 ([62] ++ b3 ++ t)) as [_ ->]; [apply spaces_run; exact S2 | reflexivity|]. cbn [app skipn].
  destruct (take_run spaceb b3 t) as [_ ->]; [apply spaces_run; exact S3 | rewrite ET; reflexivity|]. reflexivity.
Qed.

(** A document followed by [r] is a document only if [r] is white space, and it stands for the
    same tree. *)
Theorem xdocument_prefix s r root root' : xdocument s root -> xdocument (s ++ r) root' -> spaces r /\ root' = root.
Proof.
  intros (b1 & n & b2 & b3 & t & b4 & E & _ & S1 & XN & S2 & S3 & S4 & C) (b1' & n' & b2' & b3' & t' & b4' & E' & _ & S1' & XN' & S2' & S3' & S4' & C').
  assert (Q : t ++ b4 ++ r = t' ++ b4').
  { destruct (root_starts _ _ C) as [t0 T0], (root_starts _ _ C') as [t0' T0'].
    rewrite <- (undoctype_eq b1 n b2 b3 (t ++ b4 ++ r)), <- (undoctype_eq b1' n' b2' b3' (t' ++ b4')); try assumption; try (rewrite T0; eexists; reflexivity); try (rewrite T0'; eexists; reflexivity).
    f_equal. transitivity (s ++ r); [|exact E']. rewrite E. repeat (progress (rewrite <- ?app_assoc; cbn [app])). reflexivity. }
  destruct (spaces_content b4' S4') as [y Y]. assert (SY := content_spaces _ _ Y S4').
  set (f := S (List.length (t ++ b4 ++ r) + List.length (t' ++ b4'))).
  assert (R1 := root_then _ _ C (b4 ++ r) f). assert (R2 := root_then _ _ C' b4' f). rewrite <- Q in R2.
  rewrite R1 in R2 by (unfold f; rewrite !app_length; lia). clear R1.
  assert (RY := read_content_ok _ _ _ Y [] f (or_introl eq_refl)). rewrite app_nil_r in RY. rewrite RY in R2 by (unfold f; rewrite !app_length; lia).
  specialize (R2 ltac:(unfold f; rewrite !app_length; lia)).
  destruct (read_content f (b4 ++ r)) as [[[x ks] r']|] eqn:RB; [|discriminate]. injection R2 as -> -> -> ->. split; [|reflexivity].
  destruct (read_content_sound _ _ _ _ _ RB) as (u & EU & X & _). rewrite app_nil_r in EU. subst u.
  assert (SP : spaces (b4 ++ r)).
  { apply (spaces_source _ _ X). unfold spaces. eapply Forall_impl; [|exact SY]. intros c. apply spaceb_iff. }
  apply Forall_app in SP. apply SP.
Qed.
