(** A reader for the XML of SpecXml.v: a text stands for at most one document. *)
From Coq Require Import NArith ZArith List Bool String Lia.
From Coq Require Import ZifyBool ZifyN ZifyNat.
From Verif Require Import PyStr PyStrFacts Xml Docx SpecFmt SpecXml.
Import ListNotations.
Local Open Scope string_scope.
Local Open Scope list_scope.
Local Open Scope N_scope.

Definition spaceb (c : N) : bool := (c =? 32) || (c =? 9) || (c =? 10) || (c =? 13).
Definition name_charb (c : N) : bool :=
  ((97 <=? c) && (c <=? 122)) || ((65 <=? c) && (c <=? 90)) || (c =? 58) || (c =? 95) || ((48 <=? c) && (c <=? 57)) || (c =? 45) || (c =? 46).
Definition name_startb (c : N) : bool := ((97 <=? c) && (c <=? 122)) || ((65 <=? c) && (c <=? 90)) || (c =? 58) || (c =? 95).
Definition xml_charb (c : N) : bool :=
  (c =? 9) || (c =? 10) || (c =? 13) || ((32 <=? c) && (c <=? 55295)) || ((57344 <=? c) && (c <=? 65533)) || ((65536 <=? c) && (c <=? 1114111)).
Lemma name_startb_iff c : name_startb c = true <-> name_start c.
Proof. unfold name_startb, name_start. lia. Qed.
Lemma xml_charb_iff c : xml_charb c = true <-> xml_char c.
Proof. unfold xml_charb, xml_char. lia. Qed.
Lemma spaceb_iff c : spaceb c = true <-> xml_space c.
Proof. unfold spaceb, xml_space. lia. Qed.
Lemma name_charb_iff c : name_charb c = true <-> name_char c.
Proof. unfold name_charb, name_char, name_start. lia. Qed.

(** What follows a run of characters. *)
Definition ends (p : N -> bool) (s : str) : Prop := match s with c :: _ => p c = false | [] => True end.
Lemma take_run p a s : Forall (fun c => p c = true) a -> ends p s -> take_while p (a ++ s) = a /\ drop_while p (a ++ s) = s.
Proof.
  intros F E. induction F as [|c a H _ [IH1 IH2]]; cbn [app take_while drop_while].
  - destruct s as [|c s]; cbn [take_while drop_while] in *; [auto|]. cbn [ends] in E. rewrite E. auto.
  - rewrite H, IH1, IH2. auto.
Qed.
Lemma spaces_run a : spaces a -> Forall (fun c => spaceb c = true) a.
Proof. intros H. eapply Forall_impl; [|exact H]. intros c. apply spaceb_iff. Qed.
Lemma xname_run a : xname a -> Forall (fun c => name_charb c = true) a.
Proof.
  intros (c & r & -> & H & F). constructor; [apply name_charb_iff; left; exact H|]. eapply Forall_impl; [|exact F]. intros d. apply name_charb_iff.
Qed.

(** A reference at the beginning. *)
Fixpoint prefix_of (p s : str) : option str :=
  match p, s with
  | [], _ => Some s
  | a :: p, b :: s => if a =? b then prefix_of p s else None
  | _ :: _, [] => None
  end.
Fixpoint find_ref (l : list (str * N)) (s : str) : option (N * str) :=
  match l with
  | [] => None
  | (n, c) :: l => match prefix_of n s with Some r => Some (c, r) | None => find_ref l s end
  end.
Lemma prefix_app p s : prefix_of p (p ++ s) = Some s.
Proof. induction p as [|a p IH]; cbn [prefix_of app]; [reflexivity|]. rewrite N.eqb_refl. exact IH. Qed.
Lemma find_ref_app n c s : In (n, c) references -> find_ref references (n ++ s) = Some (c, s).
Proof. intros H. repeat (destruct H as [[= <- <-]|H]; [reflexivity|]). destruct H. Qed.
Lemma ref_cons n c : In (n, c) references -> exists n', n = 38 :: n'.
Proof. intros H. repeat (destruct H as [[= <- <-]|H]; [eexists; reflexivity|]). destruct H. Qed.

Fixpoint read_value (fuel : nat) (q : N) (s : str) : option (str * str) :=
  match fuel with
  | O => None
  | S f =>
      match s with
      | [] => None
      | c :: r =>
          if c =? q then Some ([], r)
          else if c =? 38 then match find_ref references s with
                               | Some (d, r) => match read_value f q r with Some (v, r') => Some (d :: v, r') | None => None end
                               | None => None
                               end
          else if c =? 60 then None
          else if spaceb c then
            let r1 := if c =? 13 then match r with d :: r1 => if d =? 10 then r1 else r | [] => r end else r in
            match read_value f q r1 with Some (v, r') => Some (32 :: v, r') | None => None end
          else if xml_charb c then match read_value f q r with Some (v, r') => Some (c :: v, r') | None => None end else None
      end
  end.
Lemma read_value_ok q w v : q = 34 \/ q = 39 -> xvalue q w v -> forall rest fuel, (List.length w < fuel)%nat ->
  read_value fuel q (w ++ q :: rest) = Some (v, rest).
Proof.
  intros Q H. assert (QS : spaceb q = false) by (destruct Q as [-> | ->]; reflexivity).
  induction H as [|c s v C S NQ N1 N2 H IH|c s v S N H IH|s v NL H IH|s v H IH|n c s v I H IH]; intros rest fuel L; destruct fuel as [|f]; try (cbn in L; lia).
  - cbn [app read_value]. rewrite N.eqb_refl. reflexivity.
  - cbn [app read_value]. rewrite (proj2 (N.eqb_neq _ _) NQ), (proj2 (N.eqb_neq _ _) N1), (proj2 (N.eqb_neq _ _) N2).
    destruct (spaceb c) eqn:E; [apply spaceb_iff in E; contradiction|]. rewrite (proj2 (xml_charb_iff c) C). rewrite IH by (cbn in L; lia). reflexivity.
  - cbn [app read_value]. destruct (N.eqb_spec c q) as [->|_]; [apply spaceb_iff in S; congruence|].
    destruct (N.eqb_spec c 38) as [->|_]; [apply spaceb_iff in S; discriminate|]. destruct (N.eqb_spec c 60) as [->|_]; [apply spaceb_iff in S; discriminate|].
    rewrite (proj2 (spaceb_iff c) S), (proj2 (N.eqb_neq _ _) N). cbn zeta. rewrite IH by (cbn in L; lia). reflexivity.
  - cbn [app read_value]. destruct (N.eqb_spec 13 q) as [<-|_]; [discriminate QS|]. change (13 =? 38) with false. change (13 =? 60) with false.
    change (spaceb 13) with true. change (13 =? 13) with true. cbn iota zeta.
    assert (E : match s ++ q :: rest with d :: r1 => if d =? 10 then r1 else s ++ q :: rest | [] => s ++ q :: rest end = s ++ q :: rest).
    { destruct s as [|d s]; cbn [app].
      - destruct (N.eqb_spec q 10) as [->|_]; [discriminate QS | reflexivity].
      - cbn [not_lf] in NL. rewrite (proj2 (N.eqb_neq _ _) NL). reflexivity. }
    rewrite E, IH by (cbn in L; lia). reflexivity.
  - cbn [app read_value]. destruct (N.eqb_spec 13 q) as [<-|_]; [discriminate QS|]. change (13 =? 38) with false. change (13 =? 60) with false.
    change (spaceb 13) with true. change (13 =? 13) with true. change (10 =? 10) with true. cbn iota zeta. rewrite IH by (cbn in L; lia). reflexivity.
  - destruct (ref_cons _ _ I) as [n' E]. rewrite <- app_assoc. assert (R := find_ref_app n c (s ++ q :: rest) I). rewrite E in *. cbn [app] in *. cbn [read_value].
    destruct (N.eqb_spec 38 q) as [X|_]; [destruct Q; subst; discriminate|]. change (38 =? 38) with true. cbn iota. rewrite R.
    cbn [List.length] in L; rewrite app_length in L. rewrite IH by lia. reflexivity.
Qed.

(** Attributes up to the end of the tag. *)
Fixpoint read_attrs (fuel : nat) (s : str) : option (list (str * str) * str) :=
  match fuel with
  | O => None
  | S f =>
      match drop_while spaceb s with
      | [] => None
      | c :: r =>
          if (c =? 62) || (c =? 47) then Some ([], c :: r)
          else if negb (name_startb c) || (List.length s =? List.length (c :: r))%nat then None
          else
            let n := take_while name_charb (c :: r) in
            match drop_while spaceb (drop_while name_charb (c :: r)) with
            | e :: r1 =>
                if negb (e =? 61) then None else
                match drop_while spaceb r1 with
                | q :: r2 =>
                    if negb ((q =? 34) || (q =? 39)) then None else
                    match read_value (S (List.length r2)) q r2 with
                    | Some (v, r3) => match read_attrs f r3 with Some (l, r4) => Some ((n, v) :: l, r4) | None => None end
                    | None => None
                    end
                | [] => None
                end
            | [] => None
            end
      end
  end.
Definition tag_end (c : N) : Prop := c = 62 \/ c = 47.
Lemma xname_cons n : xname n -> exists c r, n = c :: r /\ spaceb c = false /\ c <> 62 /\ c <> 47 /\ c <> 60 /\ name_startb c = true.
Proof. intros (c & r & -> & H & _). exists c, r. split; [reflexivity|]. rewrite name_startb_iff. unfold name_start, spaceb in *. lia. Qed.
Lemma spaces_ends_name b s : spaces b -> ends name_charb s -> ends name_charb (b ++ s).
Proof.
  intros H E. destruct H as [|c b C _]; [exact E|]. cbn [app ends]. destruct (name_charb c) eqn:X; [|reflexivity].
  apply name_charb_iff in X. unfold xml_space, name_char, name_start in *. lia.
Qed.
Lemma read_attrs_ok w a : xattrs w a -> forall b c rest fuel, spaces b -> tag_end c -> (List.length a < fuel)%nat ->
  read_attrs fuel (w ++ b ++ c :: rest) = Some (a, c :: rest).
Proof.
  induction 1 as [|b n b1 b2 q w v s l NE SB XN S1 S2 Q XV _ IH]; intros b0 c rest fuel SB0 T L; destruct fuel as [|f]; try (cbn in L; lia).
  - cbn [app read_attrs]. destruct (take_run spaceb b0 (c :: rest)) as [_ ->].
    + apply spaces_run. exact SB0.
    + cbn [ends]. destruct T as [-> | ->]; reflexivity.
    + replace ((c =? 62) || (c =? 47)) with true by (destruct T as [-> | ->]; reflexivity). reflexivity.
  - cbn [read_attrs]. repeat rewrite <- app_assoc. cbn [app]. set (tl := w ++ q :: s ++ b0 ++ c :: rest).
    destruct (xname_cons n XN) as (d & n' & EN & D1 & D2 & D3 & _ & D5).
    destruct (take_run spaceb b (n ++ b1 ++ 61 :: b2 ++ q :: tl)) as [_ ->].
    { apply spaces_run. exact SB. }
    { rewrite EN. exact D1. }
    assert (RN := take_run name_charb n (b1 ++ 61 :: b2 ++ q :: tl) (xname_run n XN)). destruct RN as [R1 R2].
    { apply spaces_ends_name; [exact S1 | reflexivity]. }
    rewrite EN in *. cbn [app] in *. rewrite (proj2 (N.eqb_neq _ _) D2), (proj2 (N.eqb_neq _ _) D3), D5. cbn [orb negb].
    match goal with |- context [Nat.eqb ?m ?k] => replace (Nat.eqb m k) with false by (symmetry; apply Nat.eqb_neq; rewrite !app_length; destruct b as [|b0' b']; [contradiction|]; cbn [List.length]; rewrite ?app_length; cbn [List.length]; lia) end.
    rewrite R1, R2. cbn zeta.
    destruct (take_run spaceb b1 (61 :: b2 ++ q :: tl)) as [_ ->]; [apply spaces_run; exact S1 | reflexivity|].
    change (61 =? 61) with true. cbn [negb]. destruct (take_run spaceb b2 (q :: tl)) as [_ ->]; [apply spaces_run; exact S2 | destruct Q as [-> | ->]; reflexivity|].
    replace ((q =? 34) || (q =? 39)) with true by (destruct Q as [-> | ->]; reflexivity). cbn [negb]. unfold tl at 2. rewrite (read_value_ok q w v Q XV); [|unfold tl; rewrite !app_length; cbn [List.length]; lia].
    rewrite IH; [reflexivity | exact SB0 | exact T | cbn [List.length] in L; lia].
Qed.

Fixpoint distinct (l : list str) : bool := match l with [] => true | a :: l => negb (smem a l) && distinct l end.
Lemma distinct_iff l : distinct l = true <-> NoDup l.
Proof.
  induction l as [|a l IH]; cbn [distinct]; [split; [constructor | reflexivity]|]. rewrite andb_true_iff, negb_true_iff, IH. split.
  - intros [M N]. constructor; [|exact N]. intros I. apply smem_In in I. congruence.
  - inversion 1; subst. split; [|assumption]. destruct (smem a l) eqn:M; [|reflexivity]. apply smem_In in M. contradiction.
Qed.
Fixpoint read_content (fuel : nat) (s : str) : option (str * list kid * str) :=
  match fuel with
  | O => None
  | S f =>
      match s with
      | [] => Some ([], [], [])
      | c :: r =>
          if c =? 38 then match find_ref references s with
                          | Some (d, r) => match read_content f r with Some (x, ks, r') => Some (d :: x, ks, r') | None => None end
                          | None => None
                          end
          else if c =? 60 then
            match r with
            | [] => None
            | d :: _ =>
                if d =? 47 then Some ([], [], s) else
                if negb (name_startb d) then None else
                let n := take_while name_charb r in
                match read_attrs (S (List.length r)) (drop_while name_charb r) with
                | Some (a, e :: r1) =>
                    if negb (distinct (map fst a)) then None else
                    if e =? 47 then
                      match r1 with
                      | g :: r2 => if negb (g =? 62) then None else match read_content f r2 with Some (x, ks, r') => Some ([], (Elem n a [] [], x) :: ks, r') | None => None end
                      | [] => None
                      end
                    else
                      match read_content f r1 with
                      | Some (bx, bks, l :: m :: r2) =>
                          if negb ((l =? 60) && (m =? 47) && seqb (take_while name_charb r2) n) then None else
                          match drop_while spaceb (drop_while name_charb r2) with
                          | g :: r3 => if negb (g =? 62) then None else match read_content f r3 with Some (x, ks, r') => Some ([], (Elem n a bx bks, x) :: ks, r') | None => None end
                          | [] => None
                          end
                      | _ => None
                      end
                | _ => None
                end
            end
          else if c =? 13 then
            let r1 := match r with d :: r1 => if d =? 10 then r1 else r | [] => r end in
            match read_content f r1 with Some (x, ks, r') => Some (10 :: x, ks, r') | None => None end
          else if xml_charb c then match read_content f r with Some (x, ks, r') => Some (c :: x, ks, r') | None => None end else None
      end
  end.
(** Where the content of an element ends. *)
Definition stops (s : str) : Prop := s = [] \/ exists r, s = 60 :: 47 :: r.
Lemma xattrs_ends w a s : xattrs w a -> ends name_charb s -> ends name_charb (w ++ s).
Proof.
  intros H E. destruct H as [|b n b1 b2 q w v r l NE SB]; [exact E|]. destruct SB as [|c b C _]; [contradiction|].
  cbn [app ends]. destruct (name_charb c) eqn:X; [|reflexivity]. apply name_charb_iff in X. unfold xml_space, name_char, name_start in *. lia.
Qed.
Lemma xattrs_length w a : xattrs w a -> (List.length a <= List.length w)%nat.
Proof. induction 1 as [|b n b1 b2 q w v r l NE SB XN S1 S2 Q XV _ IH]; [constructor|]. rewrite !app_length. cbn [List.length]. lia. Qed.
Theorem read_content_ok s x ks : xcontent s x ks -> forall rest fuel, stops rest -> (List.length s < fuel)%nat ->
  read_content fuel (s ++ rest) = Some (x, ks, rest).
Proof.
  induction 1 as [|c s x ks C N1 N2 N3 _ IH|s x ks NL _ IH|s x ks _ IH|n c s x ks I _ IH|tag w a b s x ks XN XA ND SB _ IH
    |tag w a b body bx bks b' s x ks XN XA ND SB _ IHB SB' _ IH]; intros rest fuel ST L; destruct fuel as [|f]; try (cbn in L; lia).
  - destruct ST as [->|(r & ->)]; reflexivity.
  - cbn [app read_content]. rewrite (proj2 (N.eqb_neq _ _) N1), (proj2 (N.eqb_neq _ _) N2), (proj2 (N.eqb_neq _ _) N3), (proj2 (xml_charb_iff c) C). rewrite IH by (try assumption; cbn in L; lia). reflexivity.
  - cbn [app read_content]. change (13 =? 38) with false. change (13 =? 60) with false. change (13 =? 13) with true. cbn iota zeta.
    assert (E : match s ++ rest with d :: r1 => if d =? 10 then r1 else s ++ rest | [] => s ++ rest end = s ++ rest).
    { destruct s as [|d s]; cbn [app].
      - destruct ST as [->|(r & ->)]; reflexivity.
      - cbn [not_lf] in NL. rewrite (proj2 (N.eqb_neq _ _) NL). reflexivity. }
    rewrite E, IH by (try assumption; cbn in L; lia). reflexivity.
  - cbn [app read_content]. change (13 =? 38) with false. change (13 =? 60) with false. change (13 =? 13) with true. change (10 =? 10) with true. cbn iota zeta.
    rewrite IH by (try assumption; cbn in L; lia). reflexivity.
  - destruct (ref_cons _ _ I) as [n' E]. rewrite <- app_assoc. assert (R := find_ref_app n c (s ++ rest) I). rewrite E in *. cbn [app] in *. cbn [read_content].
    change (38 =? 38) with true. cbn iota. rewrite R. cbn [List.length] in L; rewrite app_length in L. rewrite IH by (try assumption; lia). reflexivity.
  - destruct (xname_cons tag XN) as (d & n' & EN & D1 & D2 & D3 & _ & D5). cbn [app]. repeat rewrite <- app_assoc. cbn [app read_content].
    change (60 =? 38) with false. change (60 =? 60) with true. cbn iota.
    destruct (take_run name_charb tag (w ++ b ++ 47 :: 62 :: s ++ rest) (xname_run tag XN)) as [R1 R2].
    { apply (xattrs_ends _ _ _ XA). apply spaces_ends_name; [exact SB | reflexivity]. }
    pose proof (xattrs_length _ _ XA) as LA.
    assert (RA := read_attrs_ok w a XA b 47 (62 :: s ++ rest) (S (List.length (tag ++ w ++ b ++ 47 :: 62 :: s ++ rest))) SB (or_intror eq_refl)).
    rewrite EN in *. cbn [app] in *. rewrite (proj2 (N.eqb_neq _ _) D3), D5. cbn [negb]. cbn zeta. rewrite R1, R2, RA by (cbn [List.length]; rewrite !app_length; lia).
    rewrite (proj2 (distinct_iff _) ND). cbn [negb]. change (62 =? 62) with true. cbn [negb]. change (47 =? 47) with true. cbn iota. rewrite IH; [reflexivity | exact ST | cbn [List.length] in L; rewrite !app_length in L; cbn [List.length] in L; lia].
  - destruct (xname_cons tag XN) as (d & n' & EN & D1 & D2 & D3 & _ & D5). repeat (progress (cbn [app]; rewrite <- ?app_assoc)). cbn [read_content].
    change (60 =? 38) with false. change (60 =? 60) with true. cbn iota.
    set (tl := body ++ 60 :: 47 :: tag ++ b' ++ 62 :: s ++ rest).
    destruct (take_run name_charb tag (w ++ b ++ 62 :: tl) (xname_run tag XN)) as [R1 R2].
    { apply (xattrs_ends _ _ _ XA). apply spaces_ends_name; [exact SB | reflexivity]. }
    destruct (take_run name_charb tag (b' ++ 62 :: s ++ rest) (xname_run tag XN)) as [R3 R4].
    { apply spaces_ends_name; [exact SB' | reflexivity]. }
    pose proof (xattrs_length _ _ XA) as LA.
    assert (RA := read_attrs_ok w a XA b 62 tl (S (List.length (tag ++ w ++ b ++ 62 :: tl))) SB (or_introl eq_refl)).
    assert (RB := IHB (60 :: 47 :: tag ++ b' ++ 62 :: s ++ rest) f (or_intror (ex_intro _ _ eq_refl))). fold tl in RB.
    assert (LL : (List.length body < f)%nat /\ (List.length s < f)%nat) by (repeat (progress (rewrite ?app_length in L; cbn [List.length app] in L)); lia).
    specialize (RB (proj1 LL)). clearbody tl. rewrite EN in *. cbn [app] in *. rewrite (proj2 (N.eqb_neq _ _) D3), D5. cbn [negb]. cbn zeta. rewrite R1, R2, RA by (cbn [List.length]; rewrite !app_length; lia).
    rewrite (proj2 (distinct_iff _) ND). cbn [negb]. change (62 =? 47) with false. cbn iota. rewrite RB. rewrite R3, R4. rewrite (proj2 (seqb_eq (d :: n') (d :: n')) eq_refl). change ((60 =? 60) && (47 =? 47) && true) with true. cbn [negb]. destruct (take_run spaceb b' (62 :: s ++ rest)) as [_ ->]; [apply spaces_run; exact SB' | reflexivity|].
    change (62 =? 62) with true. cbn [negb]. rewrite IH; [reflexivity | exact ST | apply LL].
Qed.

(** A text between two tags stands for one content. *)
Theorem xcontent_det s x ks x' ks' : xcontent s x ks -> xcontent s x' ks' -> x = x' /\ ks = ks'.
Proof.
  intros H H'. assert (E := read_content_ok _ _ _ H [] (S (List.length s)) (or_introl eq_refl) ltac:(lia)).
  rewrite (read_content_ok _ _ _ H' [] (S (List.length s)) (or_introl eq_refl)) in E by lia. injection E. auto.
Qed.

(** An XML document stands for one tree. *)
Lemma xcontent_empty s x : xcontent s x [] -> x = [] -> s = [].
Proof. inversion 1; intros E; subst; try discriminate; reflexivity. Qed.
Lemma spaces_content b : spaces b -> exists y, xcontent b y [].
Proof.
  intros H. assert (G : forall n b, (List.length b < n)%nat -> spaces b -> exists y, xcontent b y []).
  { clear. induction n as [|n IH]; intros b L H; [lia|]. destruct H as [|c b C H]; [exists []; constructor|].
    destruct (N.eq_dec c 13) as [->|N].
    - destruct H as [|d b D H]; [destruct (IH [] ltac:(cbn in *; lia) ltac:(constructor)) as [y Y]; exists (10 :: y); apply xc_cr; [exact Logic.I | exact Y]|].
      destruct (N.eq_dec d 10) as [->|N'].
      + destruct (IH b ltac:(cbn in *; lia) H) as [y Y]. exists (10 :: y). apply xc_crlf. exact Y.
      + destruct (IH (d :: b) ltac:(cbn in *; lia) ltac:(constructor; assumption)) as [y Y]. exists (10 :: y). apply xc_cr; [exact N' | exact Y].
    - destruct (IH b ltac:(cbn in *; lia) H) as [y Y]. exists (c :: y). apply xc_char; try exact Y; unfold xml_space, xml_char in *; lia. }
  exact (G _ b (Nat.lt_succ_diag_r _) H).
Qed.
Lemma root_content t root b : xcontent t [] [(root, [])] -> spaces b -> exists y, xcontent (t ++ b) [] [(root, y)].
Proof.
  intros H B. destruct (spaces_content b B) as [y Y]. exists y. inversion H as [| | | | |tag w a b0 s x ks XN XA ND SB C|tag w a b0 body bx bks b' s x ks XN XA ND SB CB SB' C]; subst.
  - rewrite (xcontent_empty _ _ C eq_refl). repeat (progress (rewrite <- ?app_assoc; cbn [app])). apply (xc_void tag w a b0 b y []); assumption.
  - rewrite (xcontent_empty _ _ C eq_refl). repeat (progress (rewrite <- ?app_assoc; cbn [app])). apply (xc_elem tag w a b0 body bx bks b' b y []); assumption.
Qed.
Lemma root_starts t root : xcontent t [] [(root, [])] -> exists r, t = 60 :: r.
Proof. inversion 1; subst; eexists; reflexivity. Qed.
Theorem xdocument_det s r r' : xdocument s r -> xdocument s r' -> r = r'.
Proof.
  assert (G : forall s r, xdocument s r -> exists y, read_content (S (List.length s)) (drop_while spaceb (skipn 1 (drop_while spaceb (drop_while name_charb (drop_while spaceb (skipn 9 s)))))) = Some ([], [(r, y)], [])).
  { clear. intros s r (b1 & n & b2 & b3 & t & b4 & -> & _ & S1 & XN & S2 & S3 & S4 & C).
    destruct (root_content _ _ _ C S4) as [y Y]. destruct (root_starts _ _ C) as [t' ET]. exists y.
    change (skipn 9 (utf8 "<!DOCTYPE" ++ b1 ++ n ++ b2 ++ [62] ++ b3 ++ t ++ b4)) with (b1 ++ n ++ b2 ++ [62] ++ b3 ++ t ++ b4).
    destruct (xname_cons n XN) as (d & n' & EN & D1 & _).
    destruct (take_run spaceb b1 (n ++ b2 ++ [62] ++ b3 ++ t ++ b4)) as [_ ->]; [apply spaces_run; exact S1 | rewrite EN; exact D1|].
    destruct (take_run name_charb n (b2 ++ [62] ++ b3 ++ t ++ b4)) as [_ ->]; [apply xname_run; exact XN | apply spaces_ends_name; [exact S2 | reflexivity]|].
    destruct (take_run spaceb b2 ([62] ++ b3 ++ t ++ b4)) as [_ ->]; [apply spaces_run; exact S2 | reflexivity|]. cbn [app skipn].
    destruct (take_run spaceb b3 (t ++ b4)) as [_ ->]; [apply spaces_run; exact S3 | rewrite ET; reflexivity|].
    assert (R := read_content_ok _ _ _ Y [] (S (List.length (utf8 "<!DOCTYPE" ++ b1 ++ n ++ b2 ++ [62] ++ b3 ++ t ++ b4))) (or_introl eq_refl)).
    rewrite app_nil_r in R. apply R. repeat (progress (rewrite ?app_length; cbn [List.length app])). lia. }
  intros H H'. destruct (G _ _ H) as [y E]. destruct (G _ _ H') as [y' E']. rewrite E in E'. injection E'. auto.
Qed.

(** ** What the reader accepts is XML *)

Lemma prefix_sound p : forall s r, prefix_of p s = Some r -> s = p ++ r.
Proof.
  induction p as [|a p IH]; intros s r H; cbn [prefix_of] in H; [injection H as ->; reflexivity|].
  destruct s as [|b s]; [discriminate|]. destruct (N.eqb_spec a b) as [->|]; [|discriminate]. cbn [app]. rewrite (IH _ _ H). reflexivity.
Qed.
Lemma find_ref_sound l s c r : find_ref l s = Some (c, r) -> exists n, In (n, c) l /\ s = n ++ r.
Proof.
  induction l as [|[n d] l IH]; cbn [find_ref]; [discriminate|]. destruct (prefix_of n s) as [r'|] eqn:P.
  - intros [= -> ->]. exists n. split; [left; reflexivity | exact (prefix_sound _ _ _ P)].
  - intros H. destruct (IH H) as (m & I & E). exists m. split; [right; exact I | exact E].
Qed.
Lemma take_split p s : s = take_while p s ++ drop_while p s /\ Forall (fun c => p c = true) (take_while p s) /\ ends p (drop_while p s).
Proof.
  induction s as [|c s (E & F & D)]; cbn [take_while drop_while]; [repeat split; constructor|]. destruct (p c) eqn:P.
  - cbn [app]. split; [f_equal; exact E|]. split; [constructor; assumption | exact D].
  - split; [reflexivity|]. split; [constructor | exact P].
Qed.
Lemma run_spaces a : Forall (fun c => spaceb c = true) a -> spaces a.
Proof. intros H. eapply Forall_impl; [|exact H]. intros c. apply spaceb_iff. Qed.
Lemma run_xname c s : name_startb c = true -> Forall (fun c => name_charb c = true) (take_while name_charb (c :: s)) -> xname (take_while name_charb (c :: s)).
Proof.
  intros H F. assert (E : name_charb c = true) by (apply name_charb_iff; left; apply name_startb_iff; exact H).
  cbn [take_while] in *. rewrite E in *. inversion F; subst. exists c, (take_while name_charb s). split; [reflexivity|]. split; [apply name_startb_iff; exact H|].
  eapply Forall_impl; [|eassumption]. intros d. apply name_charb_iff.
Qed.

Lemma read_value_sound fuel : forall q s v r, read_value fuel q s = Some (v, r) -> exists w, s = w ++ q :: r /\ xvalue q w v.
Proof.
  induction fuel as [|f IH]; intros q s v r H; cbn [read_value] in H; [discriminate|]. destruct s as [|c s]; [discriminate|].
  destruct (N.eqb_spec c q) as [->|NQ]; [injection H as <- <-; exists []; split; [reflexivity | constructor]|].
  destruct (N.eqb_spec c 38) as [->|N1].
  { destruct (find_ref references (38 :: s)) as [[d s1]|] eqn:FR; [|discriminate]. destruct (read_value f q s1) as [[v1 r1]|] eqn:E; [|discriminate]. injection H as <- <-.
    apply find_ref_sound in FR as (n & I & ES). destruct (IH _ _ _ _ E) as (w & -> & X). exists (n ++ w). rewrite ES, <- app_assoc. split; [reflexivity|]. apply xv_ref; assumption. }
  destruct (N.eqb_spec c 60) as [->|N2]; [discriminate|]. destruct (spaceb c) eqn:SP.
  - cbn zeta in H. destruct (N.eqb_spec c 13) as [->|N3].
    + destruct s as [|d s].
      * destruct f; discriminate H.
      * destruct (N.eqb_spec d 10) as [->|ND]; destruct (read_value f q _) as [[v1 r1]|] eqn:E; try discriminate; injection H as <- <-; destruct (IH _ _ _ _ E) as (w & EW & X).
        -- exists (13 :: 10 :: w). rewrite EW. split; [reflexivity | apply xv_crlf; exact X].
        -- exists (13 :: w). rewrite EW. split; [reflexivity | apply xv_cr; [|exact X]]. destruct w as [|e w]; [exact Logic.I|]. cbn [app] in EW. injection EW as <- _. exact ND.
    + destruct (read_value f q s) as [[v1 r1]|] eqn:E; [|discriminate]. injection H as <- <-. destruct (IH _ _ _ _ E) as (w & -> & X).
      exists (c :: w). split; [reflexivity|]. apply xv_space; [apply spaceb_iff; exact SP | exact N3 | exact X].
  - destruct (xml_charb c) eqn:XC; [|discriminate]. destruct (read_value f q s) as [[v1 r1]|] eqn:E; [|discriminate]. injection H as <- <-. destruct (IH _ _ _ _ E) as (w & -> & X).
    exists (c :: w). split; [reflexivity|]. apply xv_char; try assumption; [apply xml_charb_iff; exact XC|]. intros Y. apply spaceb_iff in Y. congruence.
Qed.
Lemma read_attrs_sound fuel : forall s a r, read_attrs fuel s = Some (a, r) -> exists w b c r', s = w ++ b ++ r /\ r = c :: r' /\ tag_end c /\ xattrs w a /\ spaces b.
Proof.
  induction fuel as [|f IH]; intros s a r H; cbn [read_attrs] in H; [discriminate|].
  destruct (take_split spaceb s) as (ES & FS & _). destruct (drop_while spaceb s) as [|c r0] eqn:D; [discriminate|].
  destruct ((c =? 62) || (c =? 47)) eqn:TE.
  - injection H as <- <-. exists [], (take_while spaceb s), c, r0. split; [exact ES|]. split; [reflexivity|]. split; [unfold tag_end; lia|]. split; [constructor | apply run_spaces; exact FS].
  - destruct (name_startb c) eqn:NS; cbn [negb orb] in H; [|discriminate]. destruct (Nat.eqb_spec (List.length s) (List.length (c :: r0))) as [|NL]; [discriminate|]. cbn zeta in H.
    destruct (take_split name_charb (c :: r0)) as (EN & FN & _). set (n := take_while name_charb (c :: r0)) in *. set (s1 := drop_while name_charb (c :: r0)) in *.
    destruct (take_split spaceb s1) as (E1 & F1 & _). destruct (drop_while spaceb s1) as [|e s2]; [discriminate|].
    destruct (N.eqb_spec e 61) as [->|]; cbn [negb] in H; [|discriminate].
    destruct (take_split spaceb s2) as (E2 & F2 & _). destruct (drop_while spaceb s2) as [|q s3]; [discriminate|].
    destruct ((q =? 34) || (q =? 39)) eqn:Q; cbn [negb] in H; [|discriminate].
    destruct (read_value _ q s3) as [[v s4]|] eqn:RV; [|discriminate]. destruct (read_attrs f s4) as [[l s5]|] eqn:RA; [|discriminate]. injection H as <- <-.
    destruct (read_value_sound _ _ _ _ _ RV) as (w & E3 & XV). destruct (IH _ _ _ RA) as (w' & b & ce & r' & E4 & E5 & TG & XA & SB).
    exists (take_while spaceb s ++ n ++ take_while spaceb s1 ++ [61] ++ take_while spaceb s2 ++ [q] ++ w ++ [q] ++ w'), b, ce, r'.
    split; [|split; [exact E5|]; split; [exact TG|]; split; [|exact SB]].
    + transitivity (take_while spaceb s ++ n ++ take_while spaceb s1 ++ 61 :: take_while spaceb s2 ++ q :: w ++ q :: w' ++ b ++ s5).
      { rewrite <- E4, <- E3, <- E2, <- E1, <- EN. exact ES. }
      repeat (progress (cbn [app]; rewrite <- ?app_assoc)). reflexivity.
    + apply xa_cons; try assumption; try (apply run_spaces; assumption).
      * intros X. rewrite X in ES. apply NL. rewrite ES. reflexivity.
      * apply run_xname; assumption.
      * lia.
Qed.
Theorem read_content_sound fuel : forall s x ks r, read_content fuel s = Some (x, ks, r) -> exists t, s = t ++ r /\ xcontent t x ks /\ stops r.
Proof.
  induction fuel as [|f IH]; intros s x ks r H; cbn [read_content] in H; [discriminate|].
  destruct s as [|c s]; [injection H as <- <- <-; exists []; split; [reflexivity|]; split; [constructor | left; reflexivity]|].
  destruct (N.eqb_spec c 38) as [->|N1].
  { destruct (find_ref references (38 :: s)) as [[d s1]|] eqn:FR; [|discriminate]. destruct (read_content f s1) as [[[x1 k1] r1]|] eqn:E; [|discriminate]. injection H as <- <- <-.
    apply find_ref_sound in FR as (n & I & ES). destruct (IH _ _ _ _ E) as (w & -> & X & ST). exists (n ++ w). rewrite ES, <- app_assoc. split; [reflexivity|]. split; [apply xc_ref; assumption | exact ST]. }
  destruct (N.eqb_spec c 60) as [->|N2].
  { destruct s as [|d s]; [discriminate|]. destruct (N.eqb_spec d 47) as [->|N3].
    { injection H as <- <- <-. exists []. split; [reflexivity|]. split; [constructor | right; eexists; reflexivity]. }
    destruct (name_startb d) eqn:NS; cbn [negb] in H; [|discriminate]. cbn zeta in H.
    destruct (take_split name_charb (d :: s)) as (EN & FN & _). pose proof (run_xname d s NS FN) as XN. set (n := take_while name_charb (d :: s)) in *.
    destruct (read_attrs _ (drop_while name_charb (d :: s))) as [[a [|e r1]]|] eqn:RA; try discriminate.
    destruct (read_attrs_sound _ _ _ _ RA) as (w & b & ce & r' & E1 & E2 & TG & XA & SB). injection E2 as <- <-. rewrite E1 in EN. clear E1 RA.
    destruct (distinct (map fst a)) eqn:DI; cbn [negb] in H; [|discriminate]. apply distinct_iff in DI.
    destruct (N.eqb_spec e 47) as [->|N4].
    - destruct r1 as [|g r2]; [discriminate|]. destruct (N.eqb_spec g 62) as [->|]; cbn [negb] in H; [|discriminate].
      destruct (read_content f r2) as [[[x1 k1] r3]|] eqn:E; [|discriminate]. injection H as <- <- <-. destruct (IH _ _ _ _ E) as (t & -> & X & ST).
      exists ([60] ++ n ++ w ++ b ++ [47; 62] ++ t). split; [rewrite EN; repeat (progress (cbn [app]; rewrite <- ?app_assoc)); reflexivity|]. split; [apply xc_void; assumption | exact ST].
    - destruct TG as [->|]; [|contradiction]. destruct (read_content f r1) as [[[bx bks] [|l [|m r2]]]|] eqn:EB; try discriminate.
      destruct ((l =? 60) && (m =? 47) && seqb (take_while name_charb r2) n) eqn:CL; cbn [negb] in H; [|discriminate].
      apply andb_true_iff in CL as [CL SE]. apply andb_true_iff in CL as [C1 C2]. apply N.eqb_eq in C1, C2. subst l m. apply seqb_eq in SE.
      destruct (take_split name_charb r2) as (ER & _ & _). rewrite SE in ER. destruct (take_split spaceb (drop_while name_charb r2)) as (EG & FG & _).
      destruct (drop_while spaceb (drop_while name_charb r2)) as [|g r3]; [discriminate|]. destruct (N.eqb_spec g 62) as [->|]; cbn [negb] in H; [|discriminate].
      destruct (read_content f r3) as [[[x1 k1] r4]|] eqn:E; [|discriminate]. injection H as <- <- <-. destruct (IH _ _ _ _ E) as (t & -> & X & ST).
      destruct (IH _ _ _ _ EB) as (tb & -> & XB & _).
      exists ([60] ++ n ++ w ++ b ++ [62] ++ tb ++ [60; 47] ++ n ++ take_while spaceb (drop_while name_charb r2) ++ [62] ++ t).
      split; [|split; [apply xc_elem; try assumption; apply run_spaces; exact FG | exact ST]].
      transitivity (60 :: n ++ w ++ b ++ 62 :: tb ++ 60 :: 47 :: n ++ take_while spaceb (drop_while name_charb r2) ++ 62 :: t ++ r4).
      { rewrite <- EG, <- ER, <- EN. reflexivity. }
      repeat (progress (cbn [app]; rewrite <- ?app_assoc)). reflexivity. }
  destruct (N.eqb_spec c 13) as [->|N3].
  - cbn zeta in H. destruct s as [|d s].
    + destruct (read_content f []) as [[[x1 k1] r1]|] eqn:E; [|discriminate]. injection H as <- <- <-. destruct (IH _ _ _ _ E) as (t & ET & X & ST).
      exists (13 :: t). rewrite ET. split; [reflexivity|]. split; [|exact ST]. apply xc_cr; [|exact X]. destruct t; [exact Logic.I | discriminate].
    + destruct (N.eqb_spec d 10) as [->|ND]; destruct (read_content f _) as [[[x1 k1] r1]|] eqn:E; try discriminate; injection H as <- <- <-; destruct (IH _ _ _ _ E) as (t & ET & X & ST).
      * exists (13 :: 10 :: t). rewrite ET. split; [reflexivity|]. split; [apply xc_crlf; exact X | exact ST].
      * exists (13 :: t). rewrite ET. split; [reflexivity|]. split; [|exact ST]. apply xc_cr; [|exact X]. destruct t as [|g t]; [exact Logic.I|]. cbn [app] in ET. injection ET as <- _. exact ND.
  - destruct (xml_charb c) eqn:XC; [|discriminate]. destruct (read_content f s) as [[[x1 k1] r1]|] eqn:E; [|discriminate]. injection H as <- <- <-. destruct (IH _ _ _ _ E) as (t & -> & X & ST).
    exists (c :: t). split; [reflexivity|]. split; [apply xc_char; try assumption; apply xml_charb_iff; exact XC | exact ST].
Qed.

(** A reader for documents. *)
Definition read_xml (s : str) : option elem :=
  match prefix_of (utf8 "<!DOCTYPE") s with
  | None => None
  | Some s1 =>
      match drop_while spaceb s1 with
      | [] => None
      | c :: s2 =>
          if negb (name_startb c) || (List.length s1 =? List.length (c :: s2))%nat then None else
          match drop_while spaceb (drop_while name_charb (c :: s2)) with
          | [] => None
          | g :: s3 =>
              if negb (g =? 62) then None else
              match read_content (S (List.length s)) (drop_while spaceb s3) with
              | Some ([], [(root, y)], []) => if forallb spaceb y then Some root else None
              | _ => None
              end
          end
      end
  end.
Lemma spaces_source s y : xcontent s y [] -> spaces y -> spaces s.
Proof.
  intros H. remember [] as ks. induction H as [|c s x ks C N1 N2 N3 _ IH|s x ks NL _ IH|s x ks _ IH|n c s x ks I _ IH| |]; intros F; try discriminate Heqks.
  - constructor.
  - inversion F; subst. constructor; [assumption | apply IH; auto].
  - inversion F; subst. constructor; [unfold xml_space; lia | apply IH; auto].
  - inversion F; subst. constructor; [unfold xml_space; lia|]. constructor; [unfold xml_space; lia | apply IH; auto].
  - inversion F as [|? ? C F']; subst. exfalso. repeat (destruct I as [[= <- <-]|I]; [unfold xml_space in C; lia|]). destruct I.
Qed.
Lemma content_spaces b y : xcontent b y [] -> spaces b -> Forall (fun c => spaceb c = true) y.
Proof.
  intros H. remember [] as ks. induction H as [|c s x ks C N1 N2 N3 _ IH|s x ks NL _ IH|s x ks _ IH|n c s x ks I _ IH| |]; intros F; try discriminate Heqks.
  - constructor.
  - inversion F; subst. constructor; [apply spaceb_iff; assumption | apply IH; auto].
  - inversion F; subst. constructor; [reflexivity | apply IH; auto].
  - inversion F as [|? ? _ F']; subst. inversion F'; subst. constructor; [reflexivity | apply IH; auto].
  - destruct (ref_cons _ _ I) as [n' E]. rewrite E in F. cbn [app] in F. inversion F as [|? ? C F']; subst. unfold xml_space in C. lia.
Qed.
Theorem read_xml_iff s r : read_xml s = Some r <-> xdocument s r.
Proof.
  split.
  - unfold read_xml. destruct (prefix_of _ s) as [s1|] eqn:P; [|discriminate]. apply prefix_sound in P.
    destruct (take_split spaceb s1) as (E1 & F1 & _). destruct (drop_while spaceb s1) as [|c s2]; [discriminate|].
    destruct (name_startb c) eqn:NS; cbn [negb orb]; [|discriminate]. destruct (Nat.eqb_spec (List.length s1) (List.length (c :: s2))) as [|NL]; [discriminate|].
    destruct (take_split name_charb (c :: s2)) as (EN & FN & _). pose proof (run_xname c s2 NS FN) as XN. set (n := take_while name_charb (c :: s2)) in *.
    set (q := drop_while name_charb (c :: s2)) in *. destruct (take_split spaceb q) as (E2 & F2 & _). destruct (drop_while spaceb q) as [|g s3]; [discriminate|].
    destruct (N.eqb_spec g 62) as [->|]; cbn [negb]; [|discriminate]. destruct (take_split spaceb s3) as (E3 & F3 & _).
    destruct (read_content _ (drop_while spaceb s3)) as [[[x ks] rr]|] eqn:RC; [|discriminate]. destruct x; [|discriminate]. destruct ks as [|[root y] [|? ?]]; try discriminate.
    destruct rr; [|discriminate]. destruct (forallb spaceb y) eqn:FY; [|discriminate]. intros [= <-].
    destruct (read_content_sound _ _ _ _ _ RC) as (t & ET & X & _). rewrite app_nil_r in ET.
    assert (SY : spaces y) by (apply run_spaces; apply Forall_forall; apply forallb_forall; exact FY).
    assert (Z : exists t0 b4, t = t0 ++ b4 /\ spaces b4 /\ xcontent t0 [] [(root, [])]).
    { inversion X as [| | | | |tag w a b0 s0 x ks XT XA ND SB C|tag w a b0 body bx bks b' s0 x ks XT XA ND SB CB SB' C]; subst.
      - exists ([60] ++ tag ++ w ++ b0 ++ [47; 62] ++ []), s0. split; [repeat (progress (cbn [app]; rewrite <- ?app_assoc)); reflexivity|].
        split; [exact (spaces_source _ _ C SY) | apply xc_void; try assumption; constructor].
      - exists ([60] ++ tag ++ w ++ b0 ++ [62] ++ body ++ [60; 47] ++ tag ++ b' ++ [62] ++ []), s0. split; [repeat (progress (cbn [app]; rewrite <- ?app_assoc)); reflexivity|].
        split; [exact (spaces_source _ _ C SY) | apply xc_elem; try assumption; constructor]. }
    destruct Z as (t0 & b4 & ET0 & S4 & C). exists (take_while spaceb s1), n, (take_while spaceb q), (take_while spaceb s3), t0, b4.
    split; [|split; [|repeat split; try (apply run_spaces; assumption); try assumption]].
    + rewrite P. f_equal. rewrite <- ET0, <- ET. cbn [app]. rewrite <- E3, <- E2, <- EN. exact E1.
    + intros X0. rewrite X0 in E1. apply NL. rewrite E1. reflexivity.
  - intros (b1 & n & b2 & b3 & t & b4 & -> & NB & S1 & XN & S2 & S3 & S4 & C). unfold read_xml. rewrite prefix_app.
    destruct (root_content _ _ _ C S4) as [y Y]. destruct (root_starts _ _ C) as [t' ET].
    destruct (xname_cons n XN) as (d & n' & EN & D1 & _ & _ & _ & D5).
    destruct (take_run spaceb b1 (n ++ b2 ++ [62] ++ b3 ++ t ++ b4)) as [_ ->]; [apply spaces_run; exact S1 | rewrite EN; exact D1|].
    destruct (take_run name_charb n (b2 ++ [62] ++ b3 ++ t ++ b4) (xname_run n XN)) as [_ R2]; [apply spaces_ends_name; [exact S2 | reflexivity]|].
    rewrite EN in *. cbn [app] in *. rewrite D5. cbn [negb orb].
    match goal with |- context [Nat.eqb ?m ?k] => replace (Nat.eqb m k) with false by (symmetry; apply Nat.eqb_neq; rewrite !app_length; destruct b1 as [|b0' b']; [contradiction|]; cbn [List.length]; rewrite ?app_length; cbn [List.length]; lia) end.
    rewrite R2. destruct (take_run spaceb b2 (62 :: b3 ++ t ++ b4)) as [_ ->]; [apply spaces_run; exact S2 | reflexivity|]. change (62 =? 62) with true. cbn [negb].
    destruct (take_run spaceb b3 (t ++ b4)) as [_ ->]; [apply spaces_run; exact S3 | rewrite ET; reflexivity|].
    assert (R := read_content_ok _ _ _ Y [] (S (List.length (utf8 "<!DOCTYPE" ++ b1 ++ d :: n' ++ b2 ++ 62 :: b3 ++ t ++ b4))) (or_introl eq_refl)).
    rewrite app_nil_r in R. rewrite R by (repeat (progress (rewrite ?app_length; cbn [List.length app])); lia).
    assert (FY : forallb spaceb y = true).
    { assert (Z : exists y', xcontent (t ++ b4) [] [(r, y')] /\ Forall (fun c => spaceb c = true) y').
      { clear - C S4. inversion C as [| | | | |tag w a b0 s0 x ks XT XA ND SB C0|tag w a b0 body bx bks b' s0 x ks XT XA ND SB CB SB' C0]; subst;
          rewrite (xcontent_empty _ _ C0 eq_refl); destruct (spaces_content b4 S4) as [y' Y']; exists y'; (split; [|exact (content_spaces _ _ Y' S4)]).
        - repeat (progress (rewrite <- ?app_assoc; cbn [app])). apply (xc_void tag w a b0 b4 y' []); assumption.
        - repeat (progress (rewrite <- ?app_assoc; cbn [app])). apply (xc_elem tag w a b0 body bx bks b' b4 y' []); assumption. }
      destruct Z as (y' & C' & F). destruct (xcontent_det _ _ _ _ _ Y C') as [_ E]. injection E as ->. apply forallb_forall. apply Forall_forall. exact F. }
    rewrite FY. reflexivity.
Qed.
