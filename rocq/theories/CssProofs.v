(** The style sheet: what its lines are read as, and which formats it has rules for. *)
From Coq Require Import NArith ZArith List Bool String Lia.
From Coq Require Import ZifyBool ZifyN ZifyNat.
From Verif Require Import PyStr PyStrFacts Xml Docx Render Css SpecCss CssRead.
Import ListNotations.
Local Open Scope string_scope.
Local Open Scope list_scope.
Local Open Scope N_scope.

(** ** Lines *)

Lemma sheet_filler w s rs : filler w -> sheet_text s rs -> sheet_text (w ++ s) rs.
Proof.
  intros W H. destruct H as [w' W'|w' t l b ds s rs W' T D H].
  - apply sh_end. apply filler_app; assumption.
  - rewrite app_assoc. apply sh_rule; [apply filler_app | | |]; assumption.
Qed.
Lemma tabs_css w : Forall (fun c => c = 32 \/ c = 9) w -> css_spaces w.
Proof. intros H. eapply Forall_impl; [|exact H]. unfold css_space. tauto. Qed.
Lemma selectors_pre w t l : css_spaces w -> selectors_text t l -> selectors_text (w ++ t) l.
Proof. intros W H. destruct H; rewrite app_assoc; constructor; try assumption; apply Forall_app; split; assumption. Qed.
Lemma selectors_post t l w : selectors_text t l -> css_spaces w -> selectors_text (t ++ w) l.
Proof.
  intros H W. induction H.
  - rewrite <- !app_assoc. constructor; try assumption. apply Forall_app; split; assumption.
  - rewrite <- !app_assoc. constructor; assumption.
Qed.
Lemma declarations_pre w b ds : css_spaces w -> declarations b ds -> declarations (w ++ b) ds.
Proof. induction 1; intros H'; [exact H' | cbn [app]; constructor; auto]. Qed.

(** A declaration as written: the value may have a semicolon too many. *)
Definition decl_ok (a d : str * str) : Prop :=
  fst a = fst d /\ ident (fst d) /\ value_text (snd d) /\ (snd a = snd d \/ snd a = snd d ++ [59]).
Lemma declarations_written attrs ds rest : Forall2 decl_ok attrs ds -> forall s,
  lines_written (map (fun a => fst a ++ utf8 ": " ++ snd a ++ utf8 ";") attrs ++ utf8 "}" :: rest) s ->
  exists b s', s = b ++ [125] ++ s' /\ declarations b ds /\ exists s'', s' = 10 :: s'' /\ lines_written rest s''.
Proof.
  induction 1 as [|a d attrs ds A _ IH]; intros s W; cbn [map app] in W.
  - inversion W as [|w l ls s0 F W']; subst. exists w, (10 :: s0). split; [reflexivity|]. split; [|eauto].
    rewrite <- (app_nil_r w). apply declarations_pre; [apply tabs_css; exact F | constructor].
  - inversion W as [|w l ls s0 F W']; subst. destruct (IH s0 W') as (b & s' & -> & D & R). destruct A as (E1 & I & V & E2), a as [k v], d as [k' v']. cbn [fst snd] in *. subst k'.
    assert (D' : declarations (10 :: b) ds) by (constructor; [unfold css_space; lia | exact D]).
    exists (w ++ k ++ [] ++ [58] ++ [32] ++ v' ++ [] ++ (if (List.length v =? List.length v')%nat then [] else [59]) ++ 59 :: 10 :: b), s'.
    assert (E : v = v' ++ (if (List.length v =? List.length v')%nat then [] else [59])).
    { destruct E2 as [-> | ->]; [rewrite Nat.eqb_refl, app_nil_r; reflexivity|]. rewrite app_length. cbn [List.length].
      replace ((List.length v' + 1 =? List.length v')%nat) with false by lia. reflexivity. }
    split; [|split; [|exact R]].
    + rewrite E at 1. repeat (progress (cbn [app utf8] || rewrite <- ?app_assoc)). reflexivity.
    + apply declarations_pre; [apply tabs_css; exact F|]. apply de_decl; [exact I | constructor | repeat constructor | exact V | constructor | |].
      * right. destruct (Nat.eqb _ _); cbn [app]; eauto.
      * destruct (Nat.eqb _ _); cbn [app]; repeat apply de_semi; exact D'.
Qed.
Lemma block_written sels attrs ds ls rest s : selectors_text (join (utf8 ", ") sels) ls -> Forall2 decl_ok attrs ds ->
  lines_written (css_block sels attrs ++ rest) s ->
  exists s', lines_written rest s' /\ forall rs, sheet_text s' rs -> sheet_text s ((ls, ds) :: rs).
Proof.
  intros SL A W. unfold css_block in W. cbn [app] in W. inversion W as [|w l l' s0 F W']; subst. rewrite <- app_assoc in W'. cbn [app] in W'.
  destruct (declarations_written _ _ _ A _ W') as (b & s' & -> & D & s'' & -> & R). exists s''. split; [exact R|]. intros rs H.
  change (sheet_text (w ++ (join (utf8 ", ") sels ++ utf8 " {") ++ [10] ++ b ++ [125] ++ 10 :: s'') ((ls, ds) :: rs)).
  replace (w ++ (join (utf8 ", ") sels ++ utf8 " {") ++ [10] ++ b ++ [125] ++ 10 :: s'') with ([] ++ (w ++ join (utf8 ", ") sels ++ [32]) ++ [123] ++ (10 :: b) ++ [125] ++ [10] ++ s'').
  2:{ repeat (progress (cbn [app utf8] || rewrite <- ?app_assoc)). reflexivity. }
  apply sh_rule; [constructor | | |].
  - apply selectors_pre; [apply tabs_css; exact F|]. apply selectors_post; [exact SL|]. constructor; [unfold css_space; lia | constructor].
  - constructor; [unfold css_space; lia | exact D].
  - apply sheet_filler; [constructor; [unfold css_space; lia | constructor] | exact H].
Qed.
Lemma comment_written b rest s : Forall (fun c => c <> 47) b -> lines_written ((utf8 "/*" ++ b ++ utf8 "*/") :: rest) s ->
  exists s', lines_written rest s' /\ forall rs, sheet_text s' rs -> sheet_text s rs.
Proof.
  intros N W. inversion W as [|w l ls s0 F W']; subst. exists s0. split; [exact W'|]. intros rs H.
  apply sheet_filler; [apply spaces_filler, tabs_css; exact F|].
  change (sheet_text ((utf8 "/*" ++ b ++ utf8 "*/") ++ [10] ++ s0) rs).
  replace ((utf8 "/*" ++ b ++ utf8 "*/") ++ [10] ++ s0) with ((utf8 "/*" ++ b ++ utf8 "*/" ++ [10]) ++ s0) by (rewrite <- !app_assoc; reflexivity).
  apply sheet_filler; [|exact H]. apply (fi_comment b [10]); [|constructor; [unfold css_space; lia | constructor]].
  intros x y E. assert (I : In 47 (b ++ [42])) by (rewrite E; apply in_or_app; right; cbn; auto).
  apply in_app_iff in I as [I|[I|[]]]; [|discriminate]. rewrite Forall_forall in N. exact (N 47 I eq_refl).
Qed.

(** ** Names *)

Definition ident_b (s : str) : bool :=
  match s with c :: r => nc c && negb ((48 <=? c) && (c <=? 57)) && negb (c =? 45) && forallb nc r | [] => false end.
Lemma ident_b_ok s : ident_b s = true -> ident s.
Proof.
  destruct s as [|c r]; cbn [ident_b]; [discriminate|]. intros H. exists c, r. split; [reflexivity|].
  apply andb_true_iff in H as [H F]. split; [unfold nc in H; unfold css_letter; lia|].
  rewrite forallb_forall in F. apply Forall_forall. intros x X. apply nc_iff, F, X.
Qed.
Ltac idt := apply ident_b_ok; vm_compute; reflexivity.
Definition vc (c : N) : bool := ((97 <=? c) && (c <=? 122)) || ((65 <=? c) && (c <=? 90)) || ((48 <=? c) && (c <=? 57)) || (c =? 35) || (c =? 46) || (c =? 45) || (c =? 37).
Lemma vc_iff c : vc c = true <-> value_char c.
Proof. unfold vc, value_char, css_letter, css_digit, In. lia. Qed.
Definition value_b (s : str) : bool :=
  match s with c :: r => vc c | [] => false end && match rev s with c :: r => vc c | [] => false end && forallb (fun c => vc c || (c =? 32)) s.
Lemma value_b_ok s : value_b s = true -> value_text s.
Proof.
  unfold value_b. intros H. apply andb_true_iff in H as [H H3]. apply andb_true_iff in H as [H1 H2]. split; [|split].
  - destruct s as [|c r]; [discriminate|]. exists c, r. split; [reflexivity | apply vc_iff; exact H1].
  - destruct (rev s) as [|c r] eqn:E; [discriminate|]. exists (rev r), c. split; [|apply vc_iff; exact H2]. rewrite <- (rev_involutive s), E. reflexivity.
  - rewrite forallb_forall in H3. apply Forall_forall. intros x X. specialize (H3 x X). apply orb_true_iff in H3 as [Y|Y]; [left; apply vc_iff; exact Y | right; lia].
Qed.
Ltac val := apply value_b_ok; vm_compute; reflexivity.
Ltac decl := split; [reflexivity|]; split; [idt|]; split; [val|]; first [left; vm_compute; reflexivity | right; vm_compute; reflexivity].

Lemma uint_digits u : Forall css_digit (uint_str u).
Proof. induction u; cbn [uint_str]; constructor; try assumption; unfold css_digit; lia. Qed.
Lemma digit_name s : Forall css_digit s -> Forall name_char s.
Proof. intros H. eapply Forall_impl; [|exact H]. unfold name_char. tauto. Qed.
Lemma N_css n : Forall name_char (str_of_N n).
Proof. apply digit_name, uint_digits. Qed.
Lemma Z_css z : Forall name_char (str_of_Z z).
Proof. destruct z; cbn [str_of_Z]; [|apply N_css|]; (constructor; [unfold name_char, css_digit; lia|]); [constructor | apply N_css]. Qed.
Lemma ident_app a b : ident a -> Forall name_char b -> ident (a ++ b).
Proof. intros (c & r & -> & C & F) B. exists c, (r ++ b). split; [reflexivity|]. split; [exact C | apply Forall_app; split; assumption]. Qed.

(** ** The rules *)

Definition tagged (t : string) : simple := mkSimple (Some (utf8 t)) None None.
Lemma simple_of t k q s : match t with Some n => ident n | None => True end -> match k with Some n => ident n | None => True end -> match q with Some n => ident n | None => True end ->
  s = match t with Some n => n | None => [] end ++ match k with Some n => [46] ++ n | None => [] end ++ match q with Some n => [58] ++ n | None => [] end ->
  s <> [] -> simple_text s (mkSimple t k q).
Proof.
  intros T K Q E N. do 3 eexists. split; [exact E|]. split; [exact N|]. cbn [s_tag s_class s_pseudo]. unfold selector_part. split; [|split].
  - destruct t; [split; [exact T | reflexivity] | reflexivity].
  - destruct k; [split; [exact K | reflexivity] | reflexivity].
  - destruct q; [split; [exact Q | reflexivity] | reflexivity].
Qed.
Lemma one_selector s l : selector_text s l -> selectors_text s [l].
Proof. intros H. rewrite <- (app_nil_r s). apply (ss_one [] s [] l); [constructor | constructor | exact H]. Qed.
Ltac simp := apply simple_of; [first [idt | exact Logic.I] | first [idt | exact Logic.I] | first [idt | exact Logic.I] | vm_compute; reflexivity | discriminate].

Definition fixed_rules : list rule :=
  [ ([[tagged "body"]], [(utf8 "font-family", utf8 "sans-serif")]);
    ([[mkSimple (Some (utf8 "p")) None (Some (utf8 "first-child"))]], [(utf8 "margin-top", utf8 ".3em")]);
    ([[mkSimple (Some (utf8 "p")) None (Some (utf8 "last-child"))]], [(utf8 "margin-bottom", utf8 ".3em")]);
    ([[tagged "p"]], [(utf8 "margin-top", utf8 "0em"); (utf8 "margin-left", utf8 ".2em"); (utf8 "margin-right", utf8 ".2em")]);
    ([[tagged "table"]; [tagged "td"]; [tagged "th"]], [(utf8 "border-collapse", utf8 "collapse"); (utf8 "border", utf8 "1px solid black")]);
    ([[tagged "table"]], [(utf8 "margin-left", utf8 ".3em"); (utf8 "margin-right", utf8 ".3em"); (utf8 "margin-bottom", utf8 "3em"); (utf8 "margin-top", utf8 "1em")]);
    ([[tagged "td"; tagged "table"]], [(utf8 "margin-bottom", utf8 "1em")]) ].
Definition list_style (l : lvl) : str :=
  if is_ordered l then ol_style (v_fmt l) else if (v_ilvl l mod 2 =? 0)%Z then utf8 "disc" else utf8 "circle".
Definition list_rule (l : lvl) : rule :=
  ([mkSimple (Some (lvl_tag l)) (Some (lvl_class l)) None :: repeat (mkSimple (Some (lvl_tag l)) None None) (Z.to_nat (v_ilvl l))],
   [(utf8 "list-style-type", list_style l)]).
Definition class_rule (p : str * list (str * str)) : rule := ([[mkSimple None (Some (fst p)) None]], snd p).
Definition levels (num : option numbering) : list lvl := match num with Some n => flat_map snd (n_abs n) | None => [] end.
Definition sheet_rules (num : option numbering) (c : caches) : list rule :=
  fixed_rules ++ map list_rule (levels num) ++ map class_rule (emit_rules css_attrs (c_txt c) ++ emit_rules fill_css (c_cell c)).

(** What is to be proved of some lines: read with the lines after them. *)
Definition lines_read (ls : list str) (rs : list rule) : Prop :=
  forall rest s, lines_written (ls ++ rest) s -> exists s', lines_written rest s' /\ forall rs', sheet_text s' rs' -> sheet_text s (rs ++ rs').
Lemma read_nil : lines_read [] [].
Proof. intros rest s W. exists s. auto. Qed.
Lemma read_app a ra b rb : lines_read a ra -> lines_read b rb -> lines_read (a ++ b) (ra ++ rb).
Proof.
  intros A B rest s W. rewrite <- app_assoc in W. destruct (A _ _ W) as (s1 & W1 & H1). destruct (B _ _ W1) as (s2 & W2 & H2).
  exists s2. split; [exact W2|]. intros rs' H. rewrite <- app_assoc. auto.
Qed.
Lemma read_block sels attrs ds ls : selectors_text (join (utf8 ", ") sels) ls -> Forall2 decl_ok attrs ds -> lines_read (css_block sels attrs) [(ls, ds)].
Proof. intros SL A rest s W. exact (block_written _ _ _ _ _ _ SL A W). Qed.
Lemma read_comment b : Forall (fun c => c <> 47) b -> lines_read [utf8 "/*" ++ b ++ utf8 "*/"] [].
Proof. intros N rest s W. exact (comment_written _ _ _ N W). Qed.
Lemma read_end ls rs : lines_read ls rs -> forall s, lines_written ls s -> sheet_text s rs.
Proof.
  intros H s W. rewrite <- (app_nil_r ls) in W. destruct (H _ _ W) as (s' & W' & R). inversion W'; subst. rewrite <- (app_nil_r rs). apply R. apply sh_end. constructor.
Qed.

Lemma read_prelude : lines_read (css_prelude None) fixed_rules.
Proof.
  unfold css_prelude, fixed_rules.
  repeat first [ apply (read_app _ [_] _ _); [apply read_block; [|repeat (constructor; [decl|]); constructor] |]
               | exact read_nil ].
  all: try (apply one_selector, st_one; simp).
  - change (join (utf8 ", ") [utf8 "table"; utf8 "td"; utf8 "th"]) with ([] ++ utf8 "table" ++ [] ++ [44] ++ ([32] ++ utf8 "td" ++ [] ++ [44] ++ ([32] ++ utf8 "th" ++ []))).
    apply ss_more; [constructor | constructor | apply st_one; simp|]. apply ss_more; [repeat constructor | constructor | apply st_one; simp|].
    apply ss_one; [repeat constructor | constructor | apply st_one; simp].
  - apply one_selector. change (join (utf8 ", ") [utf8 "td table"]) with (utf8 "td" ++ [32] ++ utf8 "table").
    apply st_more; [simp | repeat constructor | discriminate | apply st_one; simp].
Qed.
Lemma lvl_tag_ident l : ident (lvl_tag l).
Proof. unfold lvl_tag. destruct (is_ordered l); idt. Qed.
Lemma lvl_class_ident l : ident (lvl_class l).
Proof. unfold lvl_class. apply ident_app; [apply lvl_tag_ident | apply Z_css]. Qed.
Lemma ident_ne n : ident n -> n <> [].
Proof. intros (c & r & -> & _). discriminate. Qed.
Lemma repeat_selector t n : ident t -> selector_text (join (utf8 " ") (repeat t (S n))) (repeat (mkSimple (Some t) None None) (S n)).
Proof.
  intros I. assert (X : simple_text t (mkSimple (Some t) None None)).
  { apply simple_of; try exact Logic.I; [exact I | rewrite !app_nil_r; reflexivity | apply ident_ne; exact I]. }
  induction n as [|n IH]; [apply st_one; exact X|].
  change (join (utf8 " ") (repeat t (S (S n)))) with (t ++ [32] ++ join (utf8 " ") (repeat t (S n))).
  apply st_more; [exact X | repeat constructor | discriminate | exact IH].
Qed.
Lemma list_style_value l : value_text (list_style l).
Proof.
  unfold list_style, ol_style. destruct (is_ordered l).
  - destruct (seqb _ _); [val|]. destruct (seqb _ _); [val|]. destruct (seqb _ _); val.
  - destruct (_ =? _)%Z; val.
Qed.
Lemma read_level l : lines_read [to_css l] [list_rule l].
Proof.
  intros rest s W. cbn [app] in W. inversion W as [|w x ls s0 F W']; subst. exists s0. split; [exact W'|]. intros rs' H. cbn [app].
  set (body := [32] ++ utf8 "list-style-type" ++ [] ++ [58] ++ [32] ++ list_style l ++ [] ++ [59; 32]).
  assert (D : declarations body [(utf8 "list-style-type", list_style l)]).
  { unfold body. apply (declarations_pre [32]); [repeat constructor|]. apply de_decl; [idt | constructor | repeat constructor | apply list_style_value | constructor | right; eauto|].
    apply de_semi. apply de_space; [left; reflexivity | constructor]. }
  assert (S : exists t, to_css l = t ++ [32; 123] ++ body ++ [125] /\ selectors_text t [mkSimple (Some (lvl_tag l)) (Some (lvl_class l)) None :: repeat (mkSimple (Some (lvl_tag l)) None None) (Z.to_nat (v_ilvl l))]).
  { assert (X : simple_text (lvl_tag l ++ [46] ++ lvl_class l) (mkSimple (Some (lvl_tag l)) (Some (lvl_class l)) None)).
    { apply simple_of; [apply lvl_tag_ident | apply lvl_class_ident | exact Logic.I | rewrite app_nil_r; reflexivity|].
      pose proof (ident_ne _ (lvl_tag_ident l)). destruct (lvl_tag l); [contradiction | discriminate]. }
    unfold to_css. fold (list_style l). unfold body. destruct (Z.to_nat (v_ilvl l)) as [|n].
    - exists (lvl_tag l ++ [46] ++ lvl_class l). split; [|apply one_selector, st_one; exact X]. cbn [repeat join].
      clear. generalize (lvl_tag l), (lvl_class l), (list_style l). intros a b d. rewrite <- !app_assoc. reflexivity.
    - exists ((lvl_tag l ++ [46] ++ lvl_class l) ++ [32] ++ join (utf8 " ") (repeat (lvl_tag l) (S n))). split.
      + destruct (join (utf8 " ") (repeat (lvl_tag l) (S n))) as [|y ys] eqn:E.
        * exfalso. destruct (selector_chars _ _ (repeat_selector _ n (lvl_tag_ident l))) as [_ (c & r & Z & _)]. rewrite E in Z. discriminate.
        * clear. generalize (lvl_tag l), (lvl_class l), (list_style l). intros a b d. rewrite <- !app_assoc. reflexivity.
      + apply one_selector. apply st_more; [exact X | repeat constructor | discriminate | apply repeat_selector, lvl_tag_ident]. }
  destruct S as (t & -> & T). unfold list_rule. change (10 :: s0) with ([10] ++ s0).
  replace (w ++ (t ++ [32; 123] ++ body ++ [125]) ++ [10] ++ s0) with (w ++ (t ++ [32]) ++ [123] ++ body ++ [125] ++ [10] ++ s0) by (rewrite <- !app_assoc; reflexivity).
  apply sh_rule; [apply spaces_filler, tabs_css; exact F | apply selectors_post; [exact T | repeat constructor] | exact D|].
  apply sheet_filler; [constructor; [unfold css_space; lia | constructor] | exact H].
Qed.
Lemma read_levels ls : lines_read (map to_css ls) (map list_rule ls).
Proof. induction ls as [|l ls IH]; [exact read_nil|]. exact (read_app [_] [_] _ _ (read_level l) IH). Qed.
Lemma flat_map_map {A B C} (f : A -> B) (g : C -> list A) l : flat_map (fun p => map f (g p)) l = map f (flat_map g l).
Proof. induction l as [|a l IH]; cbn [flat_map map]; [reflexivity|]. rewrite map_app, IH. reflexivity. Qed.
Lemma prelude_split num : css_prelude num = css_prelude None ++ match num with Some n => [utf8 "/* list-formatting styles */"] ++ map to_css (levels num) | None => [] end.
Proof. unfold css_prelude, levels. destruct num as [n|]; [rewrite (flat_map_map to_css snd)|]; rewrite <- !app_assoc; reflexivity. Qed.
Lemma no_slash b : forallb (fun c => negb (c =? 47)) b = true -> Forall (fun c => c <> 47) b.
Proof. intros H. rewrite forallb_forall in H. apply Forall_forall. intros c C. specialize (H c C). lia. Qed.
Lemma read_full_prelude num : lines_read (css_prelude num) (fixed_rules ++ map list_rule (levels num)).
Proof.
  rewrite prelude_split. apply read_app; [exact read_prelude|]. destruct num as [n|]; [|exact read_nil].
  apply (read_app _ [] _ _); [|apply read_levels]. apply (read_comment (utf8 " list-formatting styles ")). apply no_slash. vm_compute. reflexivity.
Qed.

(** Class names and declarations that can be written. *)
Definition rule_ok (p : str * list (str * str)) : Prop := ident (fst p) /\ Forall (fun d => ident (fst d) /\ value_text (snd d)) (snd p).
Lemma read_classes rs : Forall rule_ok rs -> lines_read (flat_map class_block rs) (map class_rule rs).
Proof.
  induction 1 as [|p rs [N D] _ IH]; [exact read_nil|]. cbn [flat_map map]. apply (read_app _ [_] _ _); [|exact IH].
  apply read_block.
  - apply one_selector. apply st_one. apply simple_of; try exact Logic.I; [exact N | rewrite app_nil_r; reflexivity | discriminate].
  - induction D as [|d ds [I V] _ IHD]; constructor; [|exact IHD]. split; [reflexivity|]. auto.
Qed.
Theorem sheet_read num c : Forall rule_ok (emit_rules css_attrs (c_txt c)) -> Forall rule_ok (emit_rules fill_css (c_cell c)) ->
  forall s, lines_written (css_lines num c) s -> sheet_text s (sheet_rules num c).
Proof.
  intros R1 R2 s W. revert s W. apply read_end. unfold css_lines, sheet_rules. rewrite app_assoc. apply read_app; [apply read_full_prelude|].
  unfold css_epilog. rewrite map_app. apply (read_app _ [] _ _); [apply (read_comment (utf8 " text-formatting styles ")); apply no_slash; vm_compute; reflexivity|].
  apply read_app; [apply read_classes; exact R1|].
  apply (read_app _ [] _ _); [apply (read_comment (utf8 " table cell formatting styles ")); apply no_slash; vm_compute; reflexivity|]. apply read_classes; exact R2.
Qed.
