(** C74, C75, C76: what does not hold, and documents that meet the conditions. *)
From Coq Require Import NArith ZArith List Bool String Lia.
From Coq Require Import ZifyBool ZifyN ZifyNat.
From Verif Require Import PyStr PyStrFacts Xml Json Docx Render Css SpecText SpecFmt SpecHtml SpecDocx SpecXml SpecCss CssRead CssProofs.
From Verif Require Import XmlProofs XmlNeat HtmlProofs TablesOnce Prop_List Prop_Docx Prop_Xml DocxParts CssCascade CssPlaces CssLists CssTags Prop_Css.
Import ListNotations.
Local Open Scope string_scope.
Local Open Scope list_scope.
Local Open Scope N_scope.

(** ** Wrong claims *)

(** Without the condition on colours: any six characters are taken, and they can end the rule and
    begin another one. *)
Definition inj_doc : docx :=
  mkDocx (lx_e "w:document" [] [lx_e "w:body" [] [lx_e "w:tbl" [] [lx_e "w:tr" [] [lx_e "w:tc" []
    [lx_e "w:tcPr" [] [lx_e "w:shd" [("w:fill", "}b{c:d")] []]; lx_e "w:p" [] [lx_e "w:r" [] [W 0 (utf8 "w:t") [] (Some (utf8 "x")) []]]]]]]]) None (lx_e "w:styles" [] []).
Definition unindented (ls : list str) : str := flat_map (fun l => l ++ [10]) ls.
Lemma unindented_written ls : lines_written ls (unindented ls).
Proof. induction ls as [|l ls IH]; [constructor|]. cbn [unindented flat_map]. rewrite <- app_assoc. apply (lw_line [] l ls); [constructor | exact IH]. Qed.
Definition texts_ok (r : welem) : bool :=
  forallb (fun x => match w_text x with Some t => forallb (fun c => xml_charb c && negb (c =? 13)) t | None => true end) (nodes r).
Lemma texts_okay r : texts_ok r = true -> forall x t, has_node r x -> w_text x = Some t -> Forall (fun c => xml_char c /\ c <> 13) t.
Proof.
  intros H x t N T. unfold texts_ok in H. rewrite forallb_forall in H. assert (I : In x (nodes r)) by (destruct N as [->|N]; [left; reflexivity | right; exact N]).
  specialize (H x I). rewrite T in H. rewrite forallb_forall in H. apply Forall_forall. intros c C. specialize (H c C). apply andb_true_iff in H. destruct H as [A B].
  split; [apply xml_charb_iff; exact A | apply negb_true_iff, N.eqb_neq in B; exact B].
Qed.
Definition doc_units (d : docx) : list hunit := match parse_docx d with DOk us => us | _ => [] end.
Definition doc_caches (d : docx) : caches := snd (html_doc (utf8 "1") (utf8 "s") (utf8 "t") None (doc_units d)).
Definition doc_file (d : docx) : str := html_text (fst (html_doc (utf8 "1") (utf8 "s") (utf8 "t") None (doc_units d))).
Definition doc_css (d : docx) : str := unindented (css_lines (dx_num d) (doc_caches d)).
Definition is_ok {A} (r : dres A) : bool := match r with DOk _ => true | _ => false end.
Lemma doc_generated d : is_ok (parse_docx d) = true -> generated d (utf8 "1") (utf8 "s") (utf8 "t") None (doc_units d) (doc_file d) (doc_css d).
Proof.
  intros H. unfold generated, doc_file, doc_css, doc_caches, doc_units. destruct (parse_docx d) as [us| |]; try discriminate H.
  destruct (html_doc _ _ _ _ us) as [ts c] eqn:E. exists ts, c. split; [reflexivity|]. split; [reflexivity|]. split; [apply html_text_writes | apply unindented_written].
Qed.
Lemma inj_lines : css_epilog (doc_caches inj_doc) =
  [utf8 "/* text-formatting styles */"; utf8 "/* table cell formatting styles */"; utf8 ".tcell0 {"; utf8 "background-color: #}b{c:d;"; utf8 "}"].
Proof. vm_compute. reflexivity. Qed.
Theorem C74_injection_refuted :
  (forall x t, has_node (dx_body inj_doc) x -> w_text x = Some t -> Forall (fun c => xml_char c /\ c <> 13) t)
  /\ exists us s css sh, generated inj_doc (utf8 "1") (utf8 "s") (utf8 "t") None us s css /\ sheet_text css sh
       /\ In ([[mkSimple (Some (utf8 "b")) None None]], [(utf8 "c", utf8 "d")]) sh.
Proof.
  split; [apply texts_okay; vm_compute; reflexivity|].
  assert (G := doc_generated inj_doc eq_refl).
  assert (W := unindented_written (css_lines (dx_num inj_doc) (doc_caches inj_doc))).
  unfold css_lines in W. change (dx_num inj_doc) with (@None numbering) in W at 1. rewrite inj_lines in W.
  destruct (read_prelude _ _ W) as (s1 & W1 & R1).
  destruct (read_comment (utf8 " text-formatting styles ") (no_slash (utf8 " text-formatting styles ") eq_refl) _ _ W1) as (s2 & W2 & R2).
  destruct (read_comment (utf8 " table cell formatting styles ") (no_slash (utf8 " table cell formatting styles ") eq_refl) _ _ W2) as (s3 & W3 & R3).
  clear W W1 W2. inversion W3 as [|w1 l1 r1 t1 F1 V1 Q1 Q2]. subst. inversion V1 as [|w2 l2 r2 t2 F2 V2 Q1 Q2]. subst. inversion V2 as [|w3 l3 r3 t3 F3 V3 Q1 Q2]. subst. inversion V3. subst. clear V1 V2 V3 W3.
  set (r1 := ([[mkSimple None (Some (utf8 "tcell0")) None]], [(utf8 "background-color", utf8 "#")]) : rule).
  set (r2 := ([[mkSimple (Some (utf8 "b")) None None]], [(utf8 "c", utf8 "d")]) : rule).
  assert (SX : sheet_text (w1 ++ utf8 ".tcell0 {" ++ [10] ++ w2 ++ utf8 "background-color: #}b{c:d;" ++ [10] ++ w3 ++ utf8 "}" ++ [10]) [r1; r2]).
  { change (utf8 ".tcell0 {") with (utf8 ".tcell0" ++ [32] ++ [123]). change (utf8 "background-color: #}b{c:d;") with (utf8 "background-color" ++ [] ++ [58] ++ [32] ++ utf8 "#" ++ [] ++ [125] ++ utf8 "b" ++ [123] ++ utf8 "c" ++ [] ++ [58] ++ [] ++ utf8 "d" ++ [] ++ [59]).
    replace (w1 ++ _) with (w1 ++ (utf8 ".tcell0" ++ [32]) ++ [123] ++ (([10] ++ w2) ++ utf8 "background-color" ++ [] ++ [58] ++ [32] ++ utf8 "#" ++ [] ++ []) ++ [125]
       ++ ([] ++ utf8 "b" ++ [123] ++ (utf8 "c" ++ [] ++ [58] ++ [] ++ utf8 "d" ++ [] ++ [59] ++ ([10] ++ w3) ++ []) ++ [125] ++ [10])) by (rewrite <- ?app_assoc; cbn [app]; rewrite <- ?app_assoc; reflexivity).
    apply sh_rule; [apply spaces_filler, tabs_css; exact F1 | apply selectors_post; [apply one_selector, st_one; simp | repeat constructor] | |].
    - apply declarations_pre; [constructor; [unfold css_space; lia | apply tabs_css; exact F2]|].
      apply de_decl; [idt | constructor | repeat constructor | val | constructor | left; reflexivity | constructor].
    - apply sh_rule; [constructor | apply one_selector, st_one; simp | | apply sh_end; constructor; [unfold css_space; lia | constructor]].
      apply de_decl; [idt | constructor | constructor | val | constructor | right; eexists; reflexivity|].
      apply de_semi. apply declarations_pre; [constructor; [unfold css_space; lia | apply tabs_css; exact F3] | constructor]. }
  exists (doc_units inj_doc), (doc_file inj_doc), (doc_css inj_doc), (fixed_rules ++ [] ++ [] ++ [r1; r2]).
  split; [exact G|]. split; [unfold doc_css, css_lines; rewrite inj_lines; apply R1, R2, R3; exact SX|].
  apply in_or_app. right. right. left. reflexivity.
Qed.
Print Assumptions C74_injection_refuted.

(** A list in a list of another kind: the level of the inner one is 1, but among the lists of its
    kind it is the first, and the numbering has no level 0 of that kind: there is no marker. *)
Definition css_doc (num : welem) (ps : list welem) : docx :=
  mkDocx (lx_e "w:document" [] [lx_e "w:body" [] [lx_e "w:tbl" [] [lx_e "w:tr" [] [lx_e "w:tc" []
    (lx_e "w:tcPr" [] [lx_e "w:shd" [("w:fill", "D9D9D9")] []]
     :: lx_e "w:p" [] [lx_e "w:r" [] [lx_e "w:rPr" [] [lx_e "w:b" [] []; lx_e "w:color" [("w:val", "FF0000")] []]; W 0 (utf8 "w:t") [] (Some (utf8 "a")) []]] :: ps)]]]])
    (match parse_numbering num with DOk n => Some n | _ => None end) (lx_e "w:styles" [] []).
Definition mix_doc : docx := css_doc lx_num [lx_par "1" "0" "b"; lx_par "1" "1" "c"].
Definition own_num : welem := lx_e "w:numbering" []
  [lx_e "w:abstractNum" [("w:abstractNumId", "7")]
     [lx_lvl "0" "%1."; lx_e "w:lvl" [("w:ilvl", "1")] [lx_e "w:start" [("w:val", "1")] []; lx_e "w:numFmt" [("w:val", "lowerLetter")] []; lx_e "w:lvlText" [("w:val", "%2.")] []]];
   lx_e "w:num" [("w:numId", "1")] [lx_e "w:abstractNumId" [("w:val", "7")] []]].
Definition own_doc : docx := css_doc own_num [lx_par "1" "0" "b"; lx_par "1" "1" "c"].
Definition blank : elem := Elem [] [] [] [].
Definition doc_root (d : docx) : elem := match read_xml (doc_file d) with Some r => r | None => blank end.
Definition is_some {A} (o : option A) : bool := match o with Some _ => true | None => false end.
Lemma doc_root_read d : is_some (read_xml (doc_file d)) = true -> xdocument (doc_file d) (doc_root d).
Proof. unfold doc_root. intros H. apply read_xml_iff. destruct (read_xml (doc_file d)); [reflexivity | discriminate H]. Qed.
(** The element reached from the innermost one of [p] by the numbers in [path]. *)
Fixpoint place_at (p : place) (path : list nat) : place :=
  match path with
  | [] => p
  | j :: r => match p with
              | (e, i) :: up => match nth_error (e_kids e) j with Some (k, _) => place_at ((k, j) :: (e, i) :: up) r | None => [] end
              | [] => [] end
  end.
Lemma place_at_in root : forall path p, place_in root p -> place_at p path <> [] -> place_in root (place_at p path).
Proof.
  induction path as [|j r IH]; intros p P N; cbn [place_at] in *; [exact P|]. destruct p as [|[e i] up]; [contradiction|].
  destruct (nth_error (e_kids e) j) as [[k t]|] eqn:K; [|contradiction]. apply IH; [exact (pl_kid root e i up j k t P K) | exact N].
Qed.
Definition doc_place (d : docx) (path : list nat) : place := place_at [(doc_root d, O)] path.
Lemma doc_place_in d path e i up : doc_place d path = (e, i) :: up -> place_in (doc_root d) ((e, i) :: up).
Proof. intros E. rewrite <- E. apply place_at_in; [constructor|]. unfold doc_place in E. rewrite E. discriminate. Qed.
Definition colours_ok (t a : string) (r : welem) : bool :=
  forallb (fun x => negb (seqb (w_tag x) (utf8 t)) || match w_attr a x with
     Some v => forallb (fun c => (97 <=? c) && (c <=? 122) || (65 <=? c) && (c <=? 90) || (48 <=? c) && (c <=? 57)) v | None => true end) (nodes r).
Lemma colours_okay t a r : colours_ok t a r = true -> forall x v, has_node r x -> w_tag x = utf8 t -> w_attr a x = Some v -> css_word v.
Proof.
  intros H x v N T A. unfold colours_ok in H. rewrite forallb_forall in H. assert (I : In x (nodes r)) by (destruct N as [->|N]; [left; reflexivity | right; exact N]).
  specialize (H x I). rewrite A in H. apply orb_true_iff in H. destruct H as [H|H].
  - apply negb_true_iff in H. rewrite T, (proj2 (seqb_eq _ _) eq_refl) in H. discriminate.
  - rewrite forallb_forall in H. apply Forall_forall. intros c C. specialize (H c C). unfold css_letter, css_digit. lia.
Qed.
Definition usual_doc (d : docx) : bool :=
  texts_ok (dx_body d) && colours_ok "w:color" "w:val" (dx_body d) && colours_ok "w:color" "w:val" (dx_styles d) && colours_ok "w:shd" "w:fill" (dx_body d).
Lemma doc_usual d : usual_doc d = true -> usual d (utf8 "1") (utf8 "s") (utf8 "t") None.
Proof.
  intros H. apply andb_true_iff in H as [H H4]. apply andb_true_iff in H as [H H3]. apply andb_true_iff in H as [H1 H2].
  split; [apply texts_okay; exact H1|]. split.
  - assert (X : forallb (forallb (fun c => xml_charb c && negb (c =? 34) && negb (c =? 38) && negb (c =? 60) && negb (c =? 62) && negb (c =? 9) && negb (c =? 10) && negb (c =? 13)))
      ([utf8 "1"; utf8 "s"; utf8 "t"] ++ []) = true) by (vm_compute; reflexivity).
    apply Forall_forall. intros h I. rewrite forallb_forall in X. specialize (X h I). rewrite forallb_forall in X.
    split; apply Forall_forall; intros c C; specialize (X c C); repeat (apply andb_true_iff in X as [X ?]); [lia | apply xml_charb_iff; exact X].
  - split.
    + intros x v [N|N] T A _; [exact (colours_okay "w:color" "w:val" (dx_body d) H2 x v N T A) | exact (colours_okay "w:color" "w:val" (dx_styles d) H3 x v N T A)].
    + intros x v N T A _. exact (colours_okay "w:shd" "w:fill" (dx_body d) H4 x v N T A).
Qed.

Definition lvl0 : lvl := mkLvl 7 0 (utf8 "decimal") (utf8 "%1.").
Definition lvl1 : lvl := mkLvl 7 1 (utf8 "decimal") (utf8 "o").
Definition lvl2 : lvl := mkLvl 7 2 (utf8 "decimal") (utf8 "-").
Theorem C75_mixed_refuted : exists us s css root sh e i up,
  usual mix_doc (utf8 "1") (utf8 "s") (utf8 "t") None /\ generated mix_doc (utf8 "1") (utf8 "s") (utf8 "t") None us s css
  /\ xdocument s root /\ sheet_text css sh /\ place_in root ((e, i) :: up) /\ e_tag e = utf8 "ul"
  /\ forall v, ~ cascaded sh ((e, i) :: up) (utf8 "list-style-type") v.
Proof.
  assert (U := doc_usual mix_doc ltac:(vm_compute; reflexivity)). assert (G := doc_generated mix_doc eq_refl).
  destruct (generated_known _ _ _ _ _ _ _ _ U G) as (root & c & XD & UN & SX & CI & _).
  assert (R := doc_root_read mix_doc ltac:(vm_compute; reflexivity)). assert (E := UN _ R). subst root.
  destruct (doc_place mix_doc [1; 0; 0; 0; 1; 0; 1]%nat) as [|[e i] up] eqn:PL; [vm_compute in PL; discriminate PL|].
  exists (doc_units mix_doc), (doc_file mix_doc), (doc_css mix_doc), (doc_root mix_doc), (sheet_rules (dx_num mix_doc) c), e, i, up.
  split; [exact U|]. split; [exact G|]. split; [exact R|]. split; [exact SX|]. split; [exact (doc_place_in _ _ _ _ _ PL)|].
  assert (X : e_tag e = utf8 "ul" /\ e_attrs e = [(utf8 "class", utf8 "ul7")] /\ list_chain up [lvl0]).
  { vm_compute in PL. injection PL as <- <- <-. split; [reflexivity|]. split; [reflexivity|].
    repeat first [ apply lc_other; [intros [H|H]; vm_compute in H; discriminate H|]
                 | apply lc_list; [unfold list_elem; vm_compute; auto | vm_compute; reflexivity | vm_compute; reflexivity |]
                 | apply lc_nil ]. }
  destruct X as (T & A & LC). split; [exact T|]. clear PL. intros v H.
  destruct (dx_num mix_doc) as [n|] eqn:D; [|vm_compute in D; discriminate D].
  assert (K : keyed (n_abs n)) by (apply (numbering_keyed lx_num); revert D; vm_compute; congruence).
  assert (GA : z_get 7%Z (n_abs n) = Some [lvl0; lvl1; lvl2]) by (revert D; vm_compute; intros [= <-]; reflexivity).
  apply (list_wins n c CI K 7%Z [lvl0; lvl1; lvl2] GA e i up lvl1 [lvl0] T A LC) in H; [|intros x [<-|[<-|[]]]; cbn [In]; auto].
  destruct H as (x & (j & N & TX & LT & _) & _). apply nth_error_In in N. destruct N as [<-|[<-|[<-|[]]]]; [vm_compute in TX; discriminate TX | |]; vm_compute in LT; lia.
Qed.
Print Assumptions C75_mixed_refuted.

(** A list that begins at level 1: the marker is that of level 0. *)
Definition skip_doc : docx := css_doc own_num [lx_par "1" "1" "c"].
Definition own1 : lvl := mkLvl 7 1 (utf8 "lowerLetter") (utf8 "%2.").
Theorem C75_skipped_refuted : exists us s css root sh e i up u its,
  usual skip_doc (utf8 "1") (utf8 "s") (utf8 "t") None /\ generated skip_doc (utf8 "1") (utf8 "s") (utf8 "t") None us s css
  /\ xdocument s root /\ sheet_text css sh /\ place_in root ((e, i) :: up) /\ list_elem e
  /\ In u us /\ list_in u own1 its /\ marker own1 (utf8 "lower-alpha")
  /\ (forall u' l its', In u' us -> list_in u' l its' -> l = own1 /\ its' = its)
  /\ forall v, cascaded sh ((e, i) :: up) (utf8 "list-style-type") v <-> v = utf8 "decimal".
Proof.
  assert (U := doc_usual skip_doc ltac:(vm_compute; reflexivity)). assert (G := doc_generated skip_doc eq_refl).
  destruct (generated_known _ _ _ _ _ _ _ _ U G) as (root & c & XD & UN & SX & CI & _).
  assert (R := doc_root_read skip_doc ltac:(vm_compute; reflexivity)). assert (E := UN _ R). subst root.
  destruct (doc_place skip_doc [1; 0; 0; 0; 1]%nat) as [|[e i] up] eqn:PL; [vm_compute in PL; discriminate PL|].
  assert (DU : exists u, doc_units skip_doc = [u] /\ list_in u own1 [LItem [mkSpan None (utf8 "c")]] /\ forall l its, list_in u l its -> l = own1 /\ its = [LItem [mkSpan None (utf8 "c")]]).
  { eexists. split; [vm_compute; reflexivity|]. split.
    - eapply li_table; [left; reflexivity | left; reflexivity | right; left; reflexivity | apply li_list].
    - intros l its L. inversion L as [|w id rows row t u l0 its0 I1 I2 I3 L2]; subst. clear L.
      destruct I1 as [<-|[]]. destruct I2 as [<-|[]]. destruct I3 as [<-|[<-|[]]]; [inversion L2|]. inversion L2; subst. split; reflexivity. }
  destruct DU as (u & DU & LI & ALL).
  exists (doc_units skip_doc), (doc_file skip_doc), (doc_css skip_doc), (doc_root skip_doc), (sheet_rules (dx_num skip_doc) c), e, i, up, u, [LItem [mkSpan None (utf8 "c")]].
  split; [exact U|]. split; [exact G|]. split; [exact R|]. split; [exact SX|]. split; [exact (doc_place_in _ _ _ _ _ PL)|].
  assert (X : e_tag e = utf8 "ol" /\ e_attrs e = [(utf8 "class", utf8 "ol7")] /\ list_chain up []).
  { vm_compute in PL. injection PL as <- <- <-. split; [reflexivity|]. split; [reflexivity|].
    repeat first [ apply lc_other; [intros [H|H]; vm_compute in H; discriminate H|] | apply lc_nil ]. }
  destruct X as (T & A & LC). split; [left; exact T|]. clear PL. split; [rewrite DU; left; reflexivity|]. split; [exact LI|].
  split; [left; split; [eexists; reflexivity | left; split; reflexivity]|].
  split; [intros u' l its I; rewrite DU in I; destruct I as [<-|[]]; apply ALL|]. intros v.
  destruct (dx_num skip_doc) as [n|] eqn:D; [|vm_compute in D; discriminate D].
  assert (K : keyed (n_abs n)) by (apply (numbering_keyed own_num); revert D; vm_compute; congruence).
  assert (GA : z_get 7%Z (n_abs n) = Some [lvl0; own1]) by (revert D; vm_compute; intros [= <-]; reflexivity).
  rewrite (list_wins n c CI K 7%Z [lvl0; own1] GA e i up own1 [] T A LC) by (intros x [<-|[]]; cbn [In]; auto).
  assert (DP : forall x, deepest [lvl0; own1] (lvl_tag own1) (lists_with (lvl_tag own1) [own1]) x <-> x = lvl0).
  { assert (LW : lists_with (lvl_tag own1) [own1] = 1%nat) by (vm_compute; reflexivity). rewrite LW. intros x. split.
    - intros (j & N & _ & LT & _). apply nth_error_In in N. destruct N as [<-|[<-|[]]]; [reflexivity | vm_compute in LT; lia].
    - intros ->. exists O. split; [reflexivity|]. split; [vm_compute; reflexivity|]. split; [vm_compute; lia|].
      intros j' l' N _ LT. destruct j' as [|[|j']]; cbn [nth_error] in N; [injection N as <-; vm_compute; lia | injection N as <-; vm_compute in LT; lia | destruct j'; discriminate N]. }
  split.
  - intros (x & DX & M). apply DP in DX. subst x. destruct M as [[_ [[F _]|[[F _]|(_ & _ & ->)]]]|[N _]]; [discriminate F | discriminate F | reflexivity | destruct (N (utf8 "1.") eq_refl)].
  - intros ->. exists lvl0. split; [apply DP; reflexivity|]. left. split; [eexists; reflexivity|]. right. right. repeat split; discriminate.
Qed.
Print Assumptions C75_skipped_refuted.

(** ** Documents that meet the conditions *)

(** A cell with a colour, a bold red text, a numbered list and one with letters in it. *)
Example C74_ex : exists us s css root, usual own_doc (utf8 "1") (utf8 "s") (utf8 "t") None /\ generated own_doc (utf8 "1") (utf8 "s") (utf8 "t") None us s css
  /\ xdocument s root /\ (exists sh, sheet_text css sh)
  /\ (exists e i up, place_in root ((e, i) :: up) /\ e_tag e = utf8 "span" /\ e_text e = utf8 "a")
  /\ (exists e i up, place_in root ((e, i) :: up) /\ e_tag e = utf8 "th")
  /\ (exists u sp f, In u us /\ span_in u sp /\ sp_text sp = utf8 "a" /\ sp_style sp = Some f /\ looks f (utf8 "font-weight") (utf8 "bold") /\ looks f (utf8 "color") (utf8 "#FF0000"))
  /\ (exists u t, In u us /\ cell_in u t /\ tc_fill t = Some (utf8 "D9D9D9")).
Proof.
  assert (U := doc_usual own_doc ltac:(vm_compute; reflexivity)). assert (G := doc_generated own_doc eq_refl).
  destruct (C74_sheet _ _ _ _ _ _ _ _ U G) as (sh & SX & _).
  assert (R := doc_root_read own_doc ltac:(vm_compute; reflexivity)).
  exists (doc_units own_doc), (doc_file own_doc), (doc_css own_doc), (doc_root own_doc).
  split; [exact U|]. split; [exact G|]. split; [exact R|]. split; [eauto|]. split; [|split; [|split]].
  - destruct (doc_place own_doc [1; 0; 0; 0; 0; 0]%nat) as [|[e i] up] eqn:PL; [vm_compute in PL; discriminate PL|].
    exists e, i, up. split; [exact (doc_place_in _ _ _ _ _ PL)|]. vm_compute in PL. injection PL as <- _ _. split; reflexivity.
  - destruct (doc_place own_doc [1; 0; 0; 0]%nat) as [|[e i] up] eqn:PL; [vm_compute in PL; discriminate PL|].
    exists e, i, up. split; [exact (doc_place_in _ _ _ _ _ PL)|]. vm_compute in PL. injection PL as <- _ _. reflexivity.
  - destruct (doc_units own_doc) as [|u r] eqn:DU; [vm_compute in DU; discriminate DU|]. exists u.
    eexists (mkSpan (Some (mkRp (Some true) None None None None (Some (utf8 "FF0000")))) (utf8 "a")), _. split; [left; reflexivity|].
    split; [vm_compute in DU; injection DU as <- _; eapply si_table; [left; reflexivity | left; reflexivity | left; reflexivity | apply si_par; left; vm_compute; reflexivity]|].
    split; [reflexivity|]. split; [reflexivity|]. split; [apply lo_bold; reflexivity | apply (lo_color _ (utf8 "FF0000")); reflexivity].
  - destruct (doc_units own_doc) as [|u r] eqn:DU; [vm_compute in DU; discriminate DU|]. exists u. vm_compute in DU. injection DU as <- _.
    eexists. split; [left; reflexivity|]. split; [eapply ci_cell; [left; reflexivity | left; reflexivity] | vm_compute; reflexivity].
Qed.
Lemma doc_num d num : dx_num d = (match parse_numbering num with DOk n => Some n | _ => None end) ->
  forall n, dx_num d = Some n -> exists doc, parse_numbering doc = DOk n.
Proof. intros E n H. rewrite E in H. exists num. destruct (parse_numbering num); congruence. Qed.
(** It also meets the conditions of [C75_own_level]: its inner list has letters. *)
Example C75_ex : exists us s css root sh e i up,
  usual own_doc (utf8 "1") (utf8 "s") (utf8 "t") None /\ generated own_doc (utf8 "1") (utf8 "s") (utf8 "t") None us s css
  /\ xdocument s root /\ sheet_text css sh
  /\ (forall n, dx_num own_doc = Some n -> exists doc, parse_numbering doc = DOk n)
  /\ (forall n a lv, dx_num own_doc = Some n -> z_get a (n_abs n) = Some lv -> forall j l, nth_error lv j = Some l -> v_ilvl l = Z.of_nat j)
  /\ (forall u l its, In u us -> list_in u l its -> regular 0 l its /\ forall l', nested its l' -> lvl_tag l' = lvl_tag l)
  /\ place_in root ((e, i) :: up) /\ list_elem e /\ (exists e' i', In (e', i') up /\ list_elem e').
Proof.
  assert (U := doc_usual own_doc ltac:(vm_compute; reflexivity)). assert (G := doc_generated own_doc eq_refl).
  destruct (C74_sheet _ _ _ _ _ _ _ _ U G) as (sh & SX & _).
  assert (R := doc_root_read own_doc ltac:(vm_compute; reflexivity)).
  destruct (doc_place own_doc [1; 0; 0; 0; 1; 0; 1]%nat) as [|[e i] up] eqn:PL; [vm_compute in PL; discriminate PL|].
  exists (doc_units own_doc), (doc_file own_doc), (doc_css own_doc), (doc_root own_doc), sh, e, i, up.
  split; [exact U|]. split; [exact G|]. split; [exact R|]. split; [exact SX|]. split; [apply (doc_num own_doc own_num); reflexivity|].
  split; [|split; [|split; [exact (doc_place_in _ _ _ _ _ PL)|]]].
  - intros n a lv D. vm_compute in D. injection D as <-. unfold z_get. cbn [n_abs find fst]. destruct (7 =? a)%Z; cbn [snd]; [|discriminate].
    intros [= <-] j l N. destruct j as [|[|j]]; cbn [nth_error] in N; [injection N as <-; reflexivity | injection N as <-; reflexivity | destruct j; discriminate].
  - intros u l its I. vm_compute in I. destruct I as [<-|[]]. intros L. inversion L as [|w id rows row t u l0 its0 I1 I2 I3 L2]; subst. clear L.
    destruct I1 as [<-|[]]. destruct I2 as [<-|[]]. destruct I3 as [<-|[<-|[]]]; [inversion L2|]. inversion L2; subst. split.
    + constructor; [reflexivity|]. intros l' sub [X|[X|[]]]; [discriminate X|]. injection X as <- <-. constructor; [reflexivity|]. intros l' sub [X|[]]. discriminate X.
    + intros l' N. inversion N as [l0 sub its X|l0 sub its l1 X N']; subst.
      * destruct X as [X|[X|[]]]; [discriminate X|]. injection X as <- <-. vm_compute. reflexivity.
      * destruct X as [X|[X|[]]]; [discriminate X|]. injection X as <- <-. inversion N' as [l0' sub' its' X|l0' sub' its' l1' X N'']; subst; destruct X as [X|[]]; discriminate X.
  - vm_compute in PL. injection PL as <- <- <-. split; [left; reflexivity|]. do 2 eexists. split; [right; left; reflexivity | left; reflexivity].
Qed.
(** And its table, its paragraph: C76. *)
Example C76_ex : exists us s css root sh,
  usual own_doc (utf8 "1") (utf8 "s") (utf8 "t") None /\ generated own_doc (utf8 "1") (utf8 "s") (utf8 "t") None us s css
  /\ xdocument s root /\ sheet_text css sh
  /\ (exists e i up, place_in root ((e, i) :: up) /\ e_tag e = utf8 "table" /\ cascaded sh ((e, i) :: up) (utf8 "margin-bottom") (utf8 "3em"))
  /\ (exists e i up, place_in root ((e, i) :: up) /\ e_tag e = utf8 "p" /\ cascaded sh ((e, i) :: up) (utf8 "margin-top") (utf8 ".3em")).
Proof.
  assert (U := doc_usual own_doc ltac:(vm_compute; reflexivity)). assert (G := doc_generated own_doc eq_refl).
  destruct (C74_sheet _ _ _ _ _ _ _ _ U G) as (sh & SX & _).
  assert (R := doc_root_read own_doc ltac:(vm_compute; reflexivity)).
  exists (doc_units own_doc), (doc_file own_doc), (doc_css own_doc), (doc_root own_doc), sh.
  split; [exact U|]. split; [exact G|]. split; [exact R|]. split; [exact SX|]. split.
  - destruct (doc_place own_doc [1; 0]%nat) as [|[e i] up] eqn:PL; [vm_compute in PL; discriminate PL|].
    exists e, i, up. split; [exact (doc_place_in _ _ _ _ _ PL)|].
    assert (T : e_tag e = utf8 "table" /\ ~ exists e' j, In (e', j) up /\ e_tag e' = utf8 "td").
    { vm_compute in PL. injection PL as <- <- <-. split; [reflexivity|]. intros (e' & j & I & T). repeat (destruct I as [I|I]; [injection I as <- _; vm_compute in T; discriminate T|]). exact I. }
    destruct T as [T N]. split; [exact T|]. apply (C76_table _ _ _ _ _ _ _ _ U G _ _ R SX e i up _ T). right. auto.
  - destruct (doc_place own_doc [1; 0; 0; 0; 0]%nat) as [|[e i] up] eqn:PL; [vm_compute in PL; discriminate PL|].
    exists e, i, up. split; [exact (doc_place_in _ _ _ _ _ PL)|].
    assert (T : e_tag e = utf8 "p" /\ i = O) by (vm_compute in PL; injection PL as <- <- <-; split; reflexivity). destruct T as [T ->]. split; [exact T|].
    apply (proj1 (C76_paragraph _ _ _ _ _ _ _ _ U G _ _ R SX e O up _ T)). left. auto.
Qed.
