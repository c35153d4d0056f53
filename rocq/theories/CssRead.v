(** A style sheet has one reading. *)
From Coq Require Import NArith ZArith List Bool String Lia.
From Coq Require Import ZifyBool ZifyN ZifyNat.
From Verif Require Import PyStr PyStrFacts Xml SpecCss.
Import ListNotations.
Local Open Scope string_scope.
Local Open Scope list_scope.
Local Open Scope N_scope.

(** ** A reader *)

Definition sp (c : N) : bool := (c =? 32) || (c =? 9) || (c =? 10) || (c =? 12) || (c =? 13).
Definition nc (c : N) : bool := ((97 <=? c) && (c <=? 122)) || ((65 <=? c) && (c <=? 90)) || ((48 <=? c) && (c <=? 57)) || (c =? 45) || (c =? 95).
Fixpoint split_by (p : N -> bool) (s : str) : list str :=
  match s with
  | [] => [[]]
  | x :: r => if p x then [] :: split_by p r else match split_by p r with a :: l => (x :: a) :: l | [] => [[x]] end
  end.
Definition words (s : str) : list str := filter (fun w => match w with [] => false | _ => true end) (split_by sp s).
Fixpoint take (p : N -> bool) (s : str) : str := match s with c :: r => if p c then c :: take p r else [] | [] => [] end.
Fixpoint drop (p : N -> bool) (s : str) : str := match s with c :: r => if p c then drop p r else s | [] => [] end.
Definition named (c : N) (s : str) : option str * str :=
  match s with x :: r => if x =? c then (Some (take nc r), drop nc r) else (None, s) | [] => (None, []) end.
Definition read_simple (s : str) : simple :=
  let t := take nc s in
  let (k, r) := named 46 (drop nc s) in
  mkSimple (match t with [] => None | _ => Some t end) k (fst (named 58 r)).
Definition read_selector (s : str) : list simple := map read_simple (words s).
Definition read_selectors (s : str) : list (list simple) := map read_selector (split_by (fun c => c =? 44) s).
Definition trim (s : str) : str := rev (drop sp (rev (drop sp s))).
Definition read_decl (s : str) : list (str * str) :=
  match trim s with [] => [] | u => match split_by (fun c => c =? 58) u with a :: b :: _ => [(trim a, trim b)] | _ => [] end end.
Definition read_decls (s : str) : list (str * str) := flat_map read_decl (split_by (fun c => c =? 59) s).
Fixpoint skip (fuel : nat) (s : str) : str :=
  match fuel with
  | O => s
  | S f =>
      match s with
      | c :: r => if sp c then skip f r
                  else match r with d :: r' => if (c =? 47) && (d =? 42) then comment f r' else s | [] => s end
      | [] => []
      end
  end
with comment (fuel : nat) (s : str) : str :=
  match fuel with
  | O => s
  | S f =>
      match s with
      | c :: r => match r with d :: r' => if (c =? 42) && (d =? 47) then skip f r' else comment f r | [] => [] end
      | [] => []
      end
  end.
Fixpoint read_sheet (fuel : nat) (s : str) : list rule :=
  match fuel with
  | O => []
  | S f =>
      let r := skip (List.length s) s in
      match r with
      | [] => []
      | _ =>
          let t := take (fun c => negb (c =? 123)) r in
          let r1 := tl (drop (fun c => negb (c =? 123)) r) in
          let b := take (fun c => negb (c =? 125)) r1 in
          (read_selectors t, read_decls b) :: read_sheet f (tl (drop (fun c => negb (c =? 125)) r1))
      end
  end.

(** ** It reads what the grammar says *)

Lemma sp_iff c : sp c = true <-> css_space c.
Proof. unfold sp, css_space. lia. Qed.
Lemma nc_iff c : nc c = true <-> name_char c.
Proof. unfold nc, name_char, css_letter, css_digit. lia. Qed.
Lemma sp_false c : ~ css_space c -> sp c = false.
Proof. intros H. destruct (sp c) eqn:E; [exfalso; apply H, sp_iff, E | reflexivity]. Qed.
Lemma split_none p s : Forall (fun c => p c = false) s -> split_by p s = [s].
Proof. induction 1 as [|c s P _ IH]; cbn [split_by]; [reflexivity|]. rewrite P, IH. reflexivity. Qed.
Lemma split_app p a c r : Forall (fun c => p c = false) a -> p c = true -> split_by p (a ++ c :: r) = a :: split_by p r.
Proof. intros F P. induction F as [|x a X _ IH]; cbn [app split_by]; [rewrite P; reflexivity|]. rewrite X, IH. reflexivity. Qed.
Lemma words_space c s : css_space c -> words (c :: s) = words s.
Proof. intros H. unfold words. cbn [split_by]. rewrite (proj2 (sp_iff c) H). reflexivity. Qed.
Lemma words_spaces w s : css_spaces w -> words (w ++ s) = words s.
Proof. induction 1 as [|c w C _ IH]; cbn [app]; [reflexivity|]. rewrite words_space by exact C. exact IH. Qed.
Definition dark (s : str) : Prop := s <> [] /\ Forall (fun c => ~ css_space c) s.
Lemma words_one s w : dark s -> css_spaces w -> words (s ++ w) = [s].
Proof.
  intros [N F] W. assert (F' : Forall (fun c => sp c = false) s) by (eapply Forall_impl; [|exact F]; intros c; apply sp_false).
  inversion W as [|c w' C W']; subst.
  - rewrite app_nil_r. unfold words. rewrite split_none by exact F'. destruct s; [contradiction | reflexivity].
  - unfold words. rewrite split_app; [|exact F' | apply sp_iff; exact C]. cbn [filter]. destruct s; [contradiction|]. f_equal.
    pose proof (words_spaces w' [] W') as E. rewrite app_nil_r in E. unfold words in E. rewrite E. reflexivity.
Qed.
Lemma words_more s w r : dark s -> css_spaces w -> w <> [] -> words (s ++ w ++ r) = s :: words r.
Proof.
  intros [N F] W NW. assert (F' : Forall (fun c => sp c = false) s) by (eapply Forall_impl; [|exact F]; intros c; apply sp_false).
  destruct W as [|c w C W]; [contradiction|]. cbn [app]. unfold words. rewrite split_app; [|exact F' | apply sp_iff; exact C]. cbn [filter]. destruct s; [contradiction|]. f_equal.
  exact (words_spaces w r W).
Qed.

Definition sel_char (c : N) : Prop := name_char c \/ c = 46 \/ c = 58.
Lemma ident_chars n : ident n -> Forall name_char n /\ n <> [].
Proof. intros (c & r & -> & C & F). split; [constructor; [unfold name_char; tauto | exact F] | discriminate]. Qed.
Lemma simple_chars s c : simple_text s c -> Forall sel_char s /\ s <> [].
Proof.
  intros (a & b & p & -> & N & A & B & P). split; [|exact N]. clear N.
  assert (G : forall pre o t, Forall sel_char pre -> selector_part pre o t -> Forall sel_char t).
  { intros pre o t FP H. destruct o as [n|]; cbn in H; [destruct H as [I ->] | subst; constructor]. apply Forall_app. split; [exact FP|].
    eapply Forall_impl; [|exact (proj1 (ident_chars n I))]. unfold sel_char. tauto. }
  apply Forall_app; split; [eapply G; [|exact A]; constructor|]. apply Forall_app; split; (eapply G; [|eassumption]); (constructor; [unfold sel_char; tauto | constructor]).
Qed.
Lemma sel_dark s c : simple_text s c -> dark s.
Proof.
  intros H. destruct (simple_chars _ _ H) as [F N]. split; [exact N|]. eapply Forall_impl; [|exact F]. intros x. unfold sel_char, name_char, css_letter, css_digit, css_space. lia.
Qed.
Definition stops (r : str) : Prop := match r with c :: _ => nc c = false | [] => True end.
Lemma take_all p n r : Forall (fun c => p c = true) n -> match r with c :: _ => p c = false | [] => True end -> take p (n ++ r) = n /\ drop p (n ++ r) = r.
Proof.
  intros F S. induction F as [|c n C _ [IH1 IH2]]; cbn [app].
  - destruct r as [|d r]; cbn [take drop]; [auto|]. rewrite S. auto.
  - cbn [take drop]. rewrite C, IH1, IH2. auto.
Qed.
Lemma ident_run n r : ident n -> stops r -> take nc (n ++ r) = n /\ drop nc (n ++ r) = r.
Proof. intros I S. apply take_all; [|exact S]. eapply Forall_impl; [|exact (proj1 (ident_chars n I))]. intros c. apply nc_iff. Qed.
Lemma read_simple_ok s c : simple_text s c -> read_simple s = c.
Proof.
  intros (a & b & p & -> & N & A & B & P). destruct c as [t k q]; cbn [s_tag s_class s_pseudo] in *.
  assert (SP : stops p) by (destruct q as [n|]; cbn in P; [destruct P as [_ ->]; reflexivity | subst; exact Logic.I]).
  assert (SB : stops (b ++ p)) by (destruct k as [n|]; cbn in B; [destruct B as [_ ->]; reflexivity | subst; exact SP]).
  assert (EA : take nc (a ++ b ++ p) = a /\ drop nc (a ++ b ++ p) = b ++ p /\ match a with [] => None | _ => Some a end = t).
  { destruct t as [n|]; cbn in A.
    - destruct A as [I ->]. cbn [app]. destruct (ident_run n (b ++ p) I SB) as [-> ->]. destruct (ident_chars n I) as [_ NN]. destruct n; [contradiction | auto].
    - subst a. cbn [app]. destruct (take_all nc [] (b ++ p)) as [E1 E2]; [constructor | exact SB|]. cbn [app] in E1, E2. rewrite E1, E2. auto. }
  destruct EA as (E1 & E2 & E3). unfold read_simple. rewrite E1, E2. cbn zeta.
  assert (EB : named 46 (b ++ p) = (k, p)).
  { destruct k as [n|]; cbn in B.
    - destruct B as [I ->]. cbn [app named]. change (46 =? 46) with true. cbn iota. destruct (ident_run n p I SP) as [-> ->]. reflexivity.
    - subst b. cbn [app]. destruct q as [n|]; cbn in P; [destruct P as [_ ->]; reflexivity | subst; reflexivity]. }
  rewrite EB. f_equal; [exact E3|]. destruct q as [n|]; cbn in P; [|subst; reflexivity]. destruct P as [I ->]. cbn [app named]. change (58 =? 58) with true. cbn [fst].
  destruct (ident_run n [] I Logic.I) as [E _]. rewrite app_nil_r in E. rewrite E. reflexivity.
Qed.
Lemma read_selector_ok s l : selector_text s l -> forall w, css_spaces w -> read_selector (s ++ w) = l.
Proof.
  unfold read_selector. induction 1 as [s c C|s c w' r l C W N _ IH]; intros w SW.
  - rewrite (words_one s w (sel_dark _ _ C) SW). cbn [map]. rewrite (read_simple_ok _ _ C). reflexivity.
  - rewrite <- !app_assoc, (words_more s w' (r ++ w) (sel_dark _ _ C) W N). cbn [map]. rewrite (read_simple_ok _ _ C), (IH w SW). reflexivity.
Qed.
Definition plain_char (c : N) : Prop := sel_char c \/ css_space c.
Lemma selector_chars s l : selector_text s l -> Forall plain_char s /\ exists c r, s = c :: r /\ sel_char c.
Proof.
  induction 1 as [s c C|s c w r l C W N _ [IH _]]; destruct (simple_chars _ _ C) as [F NE].
  - split; [eapply Forall_impl; [|exact F]; unfold plain_char; tauto|]. destruct F as [|x s X]; [contradiction | eauto].
  - split.
    + apply Forall_app. split; [eapply Forall_impl; [|exact F]; unfold plain_char; tauto|]. apply Forall_app. split; [eapply Forall_impl; [|exact W]; unfold plain_char; tauto | exact IH].
    + destruct F as [|x s X]; [contradiction|]. exists x, (s ++ w ++ r). auto.
Qed.
Lemma spaces_plain w : css_spaces w -> Forall plain_char w.
Proof. intros H. eapply Forall_impl; [|exact H]. unfold plain_char. tauto. Qed.
Lemma plain_not c x : plain_char x -> In c [44; 123; 125] -> (x =? c) = false.
Proof. unfold plain_char, sel_char, name_char, css_letter, css_digit, css_space. intros H [<-|[<-|[<-|[]]]]; lia. Qed.
Lemma read_selectors_ok t l : selectors_text t l -> read_selectors t = l.
Proof.
  unfold read_selectors. induction 1 as [w s w' l W W' S|w s w' l r ls W W' S _ IH]; destruct (selector_chars _ _ S) as [F _].
  - rewrite split_none. 2:{ eapply Forall_impl; [|apply Forall_app; split; [exact (spaces_plain w W) | apply Forall_app; split; [exact F | exact (spaces_plain w' W')]]]. intros x X. apply (plain_not 44); [exact X | cbn; auto]. }
    cbn [map]. unfold read_selector at 1. rewrite words_spaces by exact W. f_equal. exact (read_selector_ok _ _ S w' W').
  - replace (w ++ s ++ w' ++ [44] ++ r) with ((w ++ s ++ w') ++ 44 :: r) by (rewrite <- !app_assoc; reflexivity).
    rewrite split_app; [|eapply Forall_impl; [|apply Forall_app; split; [exact (spaces_plain w W) | apply Forall_app; split; [exact F | exact (spaces_plain w' W')]]]; intros x X; apply (plain_not 44); [exact X | cbn; auto] | reflexivity].
    cbn [map]. rewrite IH. f_equal. unfold read_selector at 1. rewrite words_spaces by exact W. exact (read_selector_ok _ _ S w' W').
Qed.
Lemma selectors_chars t l : selectors_text t l -> Forall (fun c => plain_char c \/ c = 44) t /\ exists w c r, t = w ++ c :: r /\ css_spaces w /\ sel_char c.
Proof.
  assert (G : forall s, Forall plain_char s -> Forall (fun c => plain_char c \/ c = 44) s) by (intros s H; eapply Forall_impl; [|exact H]; tauto).
  induction 1 as [w s w' l W W' S|w s w' l r ls W W' S _ [IH _]]; destruct (selector_chars _ _ S) as [F (c & s' & -> & C)].
  - split; [repeat (apply Forall_app; split); apply G; auto using spaces_plain|]. exists w, c, (s' ++ w'). auto.
  - split; [repeat (apply Forall_app; split); auto using spaces_plain|]. exists w, c, (s' ++ w' ++ [44] ++ r). auto.
Qed.

(** *** Declarations *)

Lemma drop_spaces w s : css_spaces w -> drop sp (w ++ s) = drop sp s.
Proof. induction 1 as [|c w C _ IH]; cbn [app drop]; [reflexivity|]. rewrite (proj2 (sp_iff c) C). exact IH. Qed.
Lemma rev_spaces w : css_spaces w -> css_spaces (rev w).
Proof. intros H. unfold css_spaces in *. rewrite Forall_forall in *. intros c C. apply H, in_rev, C. Qed.
Definition solid (s : str) : Prop := (exists c r, s = c :: r /\ ~ css_space c) /\ (exists r c, s = r ++ [c] /\ ~ css_space c).
Lemma trim_solid w s w' : css_spaces w -> solid s -> css_spaces w' -> trim (w ++ s ++ w') = s.
Proof.
  intros W ((c & r & E & C) & (r' & c' & E' & C')) W'. unfold trim. rewrite drop_spaces by exact W.
  replace (drop sp (s ++ w')) with (s ++ w') by (rewrite E; cbn [app drop]; rewrite (sp_false c C); reflexivity).
  rewrite rev_app_distr, drop_spaces by (apply rev_spaces; exact W'). rewrite E', rev_app_distr. cbn [rev app drop]. rewrite (sp_false c' C').
  change (c' :: rev r') with ([c'] ++ rev r'). rewrite rev_app_distr, rev_involutive. reflexivity.
Qed.
Lemma trim_spaces w : css_spaces w -> trim w = [].
Proof. intros H. unfold trim. pose proof (drop_spaces w [] H) as E. rewrite app_nil_r in E. rewrite E. reflexivity. Qed.
Lemma trim_space c s : css_space c -> trim (c :: s) = trim s.
Proof. intros H. unfold trim. cbn [drop]. rewrite (proj2 (sp_iff c) H). reflexivity. Qed.
Lemma value_solid v : value_text v -> solid v.
Proof.
  intros ((c & r & E & C) & (r' & c' & E' & C') & _). split; [exists c, r | exists r', c']; (split; [assumption|]);
    unfold value_char, css_letter, css_digit, css_space, In in *; lia.
Qed.
Lemma ident_solid n : ident n -> solid n.
Proof.
  intros I. destruct (ident_chars n I) as [F N]. assert (D : forall c, In c n -> ~ css_space c).
  { intros c C. rewrite Forall_forall in F. specialize (F c C). unfold name_char, css_letter, css_digit, css_space in *. lia. }
  split.
  - destruct n as [|c r]; [contradiction|]. exists c, r. split; [reflexivity | apply D; left; reflexivity].
  - destruct (exists_last N) as (r & c & ->). exists r, c. split; [reflexivity | apply D, in_or_app; right; left; reflexivity].
Qed.
Lemma solid_app a b c : solid a -> solid c -> solid (a ++ b ++ c).
Proof.
  intros ((x & r & E & C) & _) (_ & (r' & y & E' & C')). split.
  - exists x, (r ++ b ++ c). rewrite E. auto.
  - exists (a ++ b ++ r'), y. rewrite E', <- !app_assoc. auto.
Qed.
Definition decl_char (c : N) : Prop := name_char c \/ css_space c \/ c = 58 \/ value_char c.
Lemma decl_chars n w1 w2 v w3 : ident n -> css_spaces w1 -> css_spaces w2 -> value_text v -> css_spaces w3 -> Forall decl_char (n ++ w1 ++ [58] ++ w2 ++ v ++ w3).
Proof.
  intros I W1 W2 (_ & _ & V) W3. assert (G : forall w, css_spaces w -> Forall decl_char w) by (intros w H; eapply Forall_impl; [|exact H]; unfold decl_char; tauto).
  apply Forall_app; split; [eapply Forall_impl; [|exact (proj1 (ident_chars n I))]; unfold decl_char; tauto|].
  apply Forall_app; split; [auto|]. apply Forall_app; split; [constructor; [unfold decl_char; tauto | constructor]|].
  apply Forall_app; split; [auto|]. apply Forall_app; split; [|auto]. eapply Forall_impl; [|exact V]. unfold decl_char, css_space. intros c [H | ->]; tauto.
Qed.
Lemma decl_not c x : decl_char x -> In c [59; 125] -> (x =? c) = false.
Proof. unfold decl_char, value_char, name_char, css_letter, css_digit, css_space, In. intros H [<-|[<-|[]]]; lia. Qed.
Lemma read_decl_ok n w1 w2 v w3 : ident n -> css_spaces w1 -> css_spaces w2 -> value_text v -> css_spaces w3 -> read_decl (n ++ w1 ++ [58] ++ w2 ++ v ++ w3) = [(n, v)].
Proof.
  intros I W1 W2 V W3. unfold read_decl.
  assert (E : trim (n ++ w1 ++ [58] ++ w2 ++ v ++ w3) = n ++ w1 ++ [58] ++ w2 ++ v).
  { pose proof (trim_solid [] (n ++ (w1 ++ [58] ++ w2) ++ v) w3 ltac:(constructor) (solid_app _ _ _ (ident_solid n I) (value_solid v V)) W3) as E.
    repeat (progress (cbn [app] in E; rewrite <- ?app_assoc in E)). exact E. }
  rewrite E. destruct (ident_chars n I) as [F N]. destruct n as [|c n]; [contradiction|]. cbn [app].
  change (c :: n ++ w1 ++ 58 :: w2 ++ v) with ((c :: n) ++ w1 ++ 58 :: w2 ++ v). rewrite app_assoc, split_app; [|apply Forall_app; split | reflexivity].
  2:{ eapply Forall_impl; [|exact F]. intros x. cbn beta. unfold name_char, css_letter, css_digit. lia. }
  2:{ eapply Forall_impl; [|exact W1]. intros x. cbn beta. unfold css_space. lia. }
  rewrite split_none.
  - pose proof (trim_solid [] (c :: n) w1 ltac:(constructor) (ident_solid _ I) W1) as E1. cbn [app] in E1 |- *. rewrite E1.
    pose proof (trim_solid w2 v [] W2 (value_solid v V) ltac:(constructor)) as E2. rewrite app_nil_r in E2. rewrite E2. reflexivity.
  - apply Forall_app; split; [eapply Forall_impl; [|exact W2]; intros x; cbn beta; unfold css_space; lia|].
    eapply Forall_impl; [|exact (proj2 (proj2 V))]. intros x. cbn beta. unfold value_char, css_letter, css_digit, In. lia.
Qed.
Lemma read_decls_ok s ds : declarations s ds -> read_decls s = ds.
Proof.
  unfold read_decls. induction 1 as [|c s ds C _ IH|s ds _ IH|n w1 w2 v w3 s ds I W1 W2 V W3 E _ IH].
  - reflexivity.
  - cbn [split_by]. replace (c =? 59) with false by (unfold css_space in C; lia).
    destruct (split_by (fun c => c =? 59) s) as [|a l] eqn:S; [destruct s; cbn in S; [discriminate|]; destruct (n =? 59); [discriminate|]; destruct (split_by _ s); discriminate|].
    cbn [flat_map] in *. rewrite <- IH. f_equal. unfold read_decl. rewrite trim_space by exact C. reflexivity.
  - cbn [split_by flat_map]. change (59 =? 59) with true. cbn iota. cbn [flat_map]. exact IH.
  - assert (D := decl_chars n w1 w2 v w3 I W1 W2 V W3).
    assert (D' : Forall (fun c => (c =? 59) = false) (n ++ w1 ++ [58] ++ w2 ++ v ++ w3)) by (eapply Forall_impl; [|exact D]; intros x X; apply (decl_not 59); [exact X | cbn; auto]).
    replace (n ++ w1 ++ [58] ++ w2 ++ v ++ w3 ++ s) with ((n ++ w1 ++ [58] ++ w2 ++ v ++ w3) ++ s) by (rewrite <- !app_assoc; reflexivity).
    destruct E as [-> | [r ->]].
    + rewrite app_nil_r, split_none by exact D'. cbn [flat_map]. rewrite read_decl_ok by assumption. cbn in IH. rewrite <- IH. reflexivity.
    + rewrite split_app; [|exact D' | reflexivity]. cbn [flat_map]. rewrite read_decl_ok by assumption. cbn [app]. f_equal.
      cbn [split_by] in IH. change (59 =? 59) with true in IH. cbn iota in IH. cbn [flat_map] in IH. exact IH.
Qed.
Lemma declarations_chars s ds : declarations s ds -> Forall (fun c => (c =? 125) = false) s.
Proof.
  induction 1 as [|c s ds C _ IH|s ds _ IH|n w1 w2 v w3 s ds I W1 W2 V W3 E _ IH].
  - constructor.
  - constructor; [unfold css_space in C; lia | exact IH].
  - constructor; [reflexivity | exact IH].
  - replace (n ++ w1 ++ [58] ++ w2 ++ v ++ w3 ++ s) with ((n ++ w1 ++ [58] ++ w2 ++ v ++ w3) ++ s) by (rewrite <- !app_assoc; reflexivity).
    apply Forall_app; split; [|exact IH]. eapply Forall_impl; [|exact (decl_chars n w1 w2 v w3 I W1 W2 V W3)]. intros x X. apply (decl_not 125); [exact X | cbn; auto].
Qed.

(** *** The sheet *)

Definition begins (r : str) : Prop := match r with c :: _ => sel_char c | [] => True end.
Lemma skip_end f r : begins r -> skip f r = r.
Proof.
  intros B. destruct f; [reflexivity|]. destruct r as [|c r]; [reflexivity|]. cbn [skip]. cbn in B.
  replace (sp c) with false by (symmetry; apply sp_false; unfold sel_char, name_char, css_letter, css_digit, css_space in *; lia).
  destruct r as [|d r]; [reflexivity|]. replace (c =? 47) with false by (unfold sel_char, name_char, css_letter, css_digit in B; lia). reflexivity.
Qed.
Lemma comment_skip b : (forall x y, b ++ [42] <> x ++ [42; 47] ++ y) -> forall f r, (List.length b + 1 <= f)%nat -> comment f (b ++ [42; 47] ++ r) = skip (f - List.length b - 1) r.
Proof.
  induction b as [|c b IH]; intros H f r L; (destruct f as [|f]; [cbn [List.length] in L; lia|]); cbn [app comment List.length] in *.
  - change (42 =? 42) with true. change (47 =? 47) with true. cbn [andb]. f_equal. lia.
  - assert (E : exists d t, b ++ 42 :: 47 :: r = d :: t /\ ((c =? 42) && (d =? 47)) = false).
    { destruct b as [|d b]; cbn [app].
      - exists 42, (47 :: r). split; [reflexivity|]. destruct (c =? 42); reflexivity.
      - exists d, (b ++ 42 :: 47 :: r). split; [reflexivity|]. destruct (N.eqb_spec c 42) as [->|]; [|reflexivity]. destruct (N.eqb_spec d 47) as [->|]; [|reflexivity].
        exfalso. apply (H [] (b ++ [42])). reflexivity. }
    destruct E as (d & t & E & X). rewrite E, X, <- E. rewrite IH; [f_equal; lia | | lia].
    intros x y Z. apply (H (c :: x) y). cbn [app]. rewrite Z. reflexivity.
Qed.
Lemma skip_filler w : filler w -> forall f r, begins r -> (List.length w <= f)%nat -> skip f (w ++ r) = r.
Proof.
  induction 1 as [|c w C _ IH|b w NB _ IH]; intros f r B L.
  - apply skip_end. exact B.
  - destruct f as [|f]; [cbn in L; lia|]. cbn [app skip]. rewrite (proj2 (sp_iff c) C). apply IH; [exact B | cbn in L; lia].
  - rewrite !app_length in L. cbn [List.length] in L. destruct f as [|f]; [lia|]. cbn [app skip]. change (sp 47) with false. cbn iota. change (47 =? 47) with true. change (42 =? 42) with true. cbn [andb].
    rewrite <- !app_assoc. cbn [app]. change (42 :: 47 :: w ++ r) with ([42; 47] ++ w ++ r). rewrite comment_skip by (try exact NB; lia). apply IH; [exact B | lia].
Qed.
Lemma filler_app a b : filler a -> filler b -> filler (a ++ b).
Proof. intros A B. induction A as [|c a C _ IH|x a N _ IH]; [exact B | cbn [app]; constructor; assumption|]. repeat rewrite <- app_assoc. apply fi_comment; assumption. Qed.
Lemma spaces_filler w : css_spaces w -> filler w.
Proof. induction 1; constructor; assumption. Qed.
Lemma split_some p s : exists a l, split_by p s = a :: l.
Proof. destruct s as [|c s]; cbn [split_by]; [eauto|]. destruct (p c); [eauto|]. destruct (split_by p s); eauto. Qed.
Lemma selectors_space w s : css_spaces w -> read_selectors (w ++ s) = read_selectors s.
Proof.
  induction 1 as [|x w X _ IH]; [reflexivity|]. rewrite <- IH. unfold read_selectors. cbn [app split_by].
  replace (x =? 44) with false by (unfold css_space in *; lia). destruct (split_some (fun c => c =? 44) (w ++ s)) as (a & l & ->).
  cbn [map]. f_equal. unfold read_selector. rewrite words_space by assumption. reflexivity.
Qed.
Theorem read_sheet_ok s rs : sheet_text s rs -> forall f, (List.length s < f)%nat -> read_sheet f s = rs.
Proof.
  induction 1 as [w W|w t l b ds s rs W T D _ IH]; intros f L; (destruct f as [|f]; [lia|]); cbn [read_sheet].
  - pose proof (skip_filler w W (List.length w) [] Logic.I (le_n _)) as E. rewrite app_nil_r in E. rewrite E. reflexivity.
  - destruct (selectors_chars _ _ T) as [F (w0 & c & r & E & W0 & C)].
    assert (SK : skip (List.length (w ++ t ++ [123] ++ b ++ [125] ++ s)) (w ++ t ++ [123] ++ b ++ [125] ++ s) = c :: r ++ [123] ++ b ++ [125] ++ s).
    { rewrite E. replace (w ++ (w0 ++ c :: r) ++ [123] ++ b ++ [125] ++ s) with ((w ++ w0) ++ c :: r ++ [123] ++ b ++ [125] ++ s) by (rewrite <- !app_assoc; reflexivity).
      apply skip_filler; [apply filler_app; [exact W | apply spaces_filler; exact W0] | exact C | rewrite !app_length; lia]. }
    rewrite SK.
    change (c :: r ++ [123] ++ b ++ [125] ++ s) with ((c :: r) ++ [123] ++ b ++ [125] ++ s).
    assert (FR : Forall (fun x => negb (x =? 123) = true) (c :: r)).
    { rewrite E in F. apply Forall_app in F as [_ F]. eapply Forall_impl; [|exact F]. intros x [X | ->]; [|reflexivity]. rewrite (plain_not 123); [reflexivity | exact X | cbn; auto]. }
    destruct (take_all (fun x => negb (x =? 123)) (c :: r) ([123] ++ b ++ [125] ++ s) FR) as [E1 E2]; [reflexivity|].
    assert (FB : Forall (fun x => negb (x =? 125) = true) b) by (eapply Forall_impl; [|exact (declarations_chars _ _ D)]; intros x X; cbn beta in *; rewrite X; reflexivity).
    destruct (take_all (fun x => negb (x =? 125)) b ([125] ++ s) FB) as [E3 E4]; [reflexivity|].
    change ((c :: r) ++ [123] ++ b ++ [125] ++ s) with (c :: r ++ [123] ++ b ++ [125] ++ s) in *.
    cbn zeta. rewrite E1, E2. cbn [app tl]. cbn [app] in E3, E4. rewrite E3, E4. cbn [tl]. rewrite (read_decls_ok _ _ D).
    rewrite IH by (rewrite !app_length in L; cbn [List.length] in L; lia).
    f_equal. f_equal. rewrite <- (read_selectors_ok t l T), E. symmetry. apply selectors_space. exact W0.
Qed.
Corollary sheet_one s rs rs' : sheet_text s rs -> sheet_text s rs' -> rs = rs'.
Proof. intros H H'. rewrite <- (read_sheet_ok s rs H (S (List.length s))), <- (read_sheet_ok s rs' H' (S (List.length s))) by lia. reflexivity. Qed.
