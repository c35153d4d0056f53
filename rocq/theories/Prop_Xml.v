(** Property C73. *)
From Coq Require Import NArith ZArith List Bool String Lia.
From Coq Require Import ZifyBool ZifyN ZifyNat.
From Verif Require Import PyStr PyStrFacts Xml Json Docx Render SpecText SpecFmt SpecGrid SpecHtml SpecDocx SpecXml XmlProofs XmlText XmlNeat.
From Verif Require Import HtmlProofs DocxTotal TablesOnce DocxFlow Prop_Html Document Output Prop_List Prop_Docx.
Import ListNotations.
Local Open Scope string_scope.
Local Open Scope list_scope.
Local Open Scope N_scope.

(** ** The file *)

Lemma plain_ok n v : xname n -> attr_quote n = 34 -> plain v -> Forall xml_char v -> attr_ok (n, v).
Proof.
  intros X Q P F. split; [exact X|]. cbn [fst snd]. rewrite Q. clear - P F. induction P as [|c v P _ IH]; [constructor|]. inversion F; subst. constructor; [tauto | auto].
Qed.
Lemma plain_txt v : plain v -> Forall xml_char v -> Forall txt_char v.
Proof. induction 1 as [|c v P _ IH]; intros F; [constructor|]. inversion F; subst. constructor; [split; tauto | auto]. Qed.
Lemma html_doc_neat version fname title rev us ts c : Forall fine us ->
  plain version -> plain fname -> plain title -> match rev with Some r => plain r | None => True end ->
  Forall xml_char version -> Forall xml_char fname -> Forall xml_char title -> match rev with Some r => Forall xml_char r | None => True end ->
  html_doc version fname title rev us = (TDoctype :: TNl :: ts, c) -> neat ts.
Proof.
  intros F PV PF PT PR CV CF CT CR. unfold html_doc. destruct (render_all render_unit us no_caches) as [bt c1] eqn:R. intros H.
  apply pair_equal_spec in H as [H _]. unfold html_head in H. cbn [app] in H. apply (f_equal (@tl tok)) in H. cbn [tl] in H. apply (f_equal (@tl tok)) in H. cbn [tl] in H. subst ts.
  assert (B : neat bt).
  { refine (proj1 (render_all_neat render_unit us _ no_caches bt c1 _ R)).
    - intros u I c0 ts0 c2. apply (render_unit_neat (S (usize u))); [lia|]. rewrite Forall_forall in F. exact (F u I).
    - split; constructor. }
  apply ne_open; [nk | xn | constructor; [apply names_ok1; [xn | chars] | constructor]|]. apply ne_nl.
  apply ne_open; [nk | xn | constructor|]. apply ne_nl.
  apply ne_void; [xn| |].
  { constructor; [apply names_ok1; [xn | chars]|]. constructor; [apply plain_ok; [xn | reflexivity | assumption | assumption]|].
    destruct rev; [|constructor]. constructor; [apply plain_ok; [xn | reflexivity | assumption | assumption] | constructor]. }
  apply ne_nl. apply ne_void; [xn| |].
  { constructor; [apply names_ok1; [xn | chars]|]. constructor; [apply plain_ok; [xn | reflexivity | assumption | assumption] | constructor]. }
  apply ne_nl. apply ne_text; [right; reflexivity | xn | constructor | apply plain_txt; assumption|]. apply ne_nl.
  apply ne_void; [xn| |].
  { constructor; [apply names_ok1; [xn | chars]|]. constructor; [|constructor]. apply plain_ok; [xn | reflexivity | apply plain_app; [assumption | apply plain_utf8_css]|].
    apply Forall_app. split; [assumption|]. chars. }
  apply ne_nl, ne_close, ne_nl. apply ne_open; [nk | xn | constructor|]. apply ne_nl. apply neat_app; [exact B|].
  apply ne_close, ne_nl, ne_close, ne_nl. constructor.
Qed.
Lemma document_alike tr cr version fname title rev us root root' : document_shows tr cr version fname title rev us root -> alike root root' ->
  document_shows tr cr version fname title rev us root'.
Proof.
  intros (xh & xb & x1 & t1 & t2 & t3 & t4 & t5 & t6 & ks & -> & B & US) A.
  inversion A as [? ? ? K|? ? ? xh' ? ks1 NK BH _ K]; subst.
  inversion K as [|? e1 ? t5' ? k2 A1 B5 K2]; subst. inversion K2 as [|? e2 ? t6' ? k3 A2 B6 K3]; subst. inversion K3; subst. clear K K2 K3.
  inversion A2 as [? ? ? K|? ? ? xb' ? ks' NK2 BB _ K]; subst; [destruct K as [K|K]; discriminate K|].
  inversion A1 as [? ? ? K0|? ? ? x1' ? hk NK1 B1 _ K1]; subst.
  inversion K1 as [|? h1 ? t1' ? k1 M1 BT1 L1]; subst. inversion L1 as [|? h2 ? t2' ? k2 M2 BT2 L2]; subst. inversion L2 as [|? h3 ? t3' ? k3 M3 BT3 L3]; subst.
  inversion L3 as [|? h4 ? t4' ? k4 M4 BT4 L4]; subst. inversion L4; subst.
  assert (V : forall tag a e, ~ keeps tag -> alike (Elem tag a [] []) e -> e = Elem tag a [] []).
  { intros tag a e N X. inversion X as [? ? ? KK|? ? ? ? ? ? ? ? E KK]; subst; [reflexivity|]. inversion KK; subst. rewrite E. reflexivity. }
  apply V in M1; [|nk]. apply V in M2; [|nk]. apply V in M4; [|nk]. subst h1 h2 h4.
  inversion M3 as [? ? ? KK|? ? ? ? ? ? KK]; subst; [|exfalso; apply KK; right; reflexivity].
  exists xh', xb', x1', t1', t2', t3', t4', t5', t6', ks'. split; [reflexivity|]. split; [repeat (constructor; [assumption|]); constructor|].
  apply (proj2 (proj2 (proj2 (shows_alike tr cr)))) with (ks := ks); assumption.
Qed.

Lemma tail_spaces ts x ks : content ts x ks -> ks = [] -> neat ts -> forall s, writes ts s -> spaces s.
Proof.
  induction 1 as [|s0 t ts x ks R _ IH|ts x ks _ IH|tag w a rest x ks A _ IH|tag w a body bx bks rest x ks A CB IHB _ IH]; intros E N s W; try discriminate E.
  - inversion W; subst. constructor.
  - inversion N.
  - inversion N; subst. inversion W as [|w ts' s1 F W'|tag at_ w ts' s1 F W'|t0 ts' s1 T W']; subst; [|destruct T].
    constructor; [unfold xml_space; lia|]. apply Forall_app. split; [apply tabs_spaces; exact F | apply IH; auto].
Qed.
(** One element and white space. *)
Lemma root_written ts root y : content ts [] [(root, y)] -> neat ts -> forall s, writes ts s ->
  exists s1 s2 root', s = s1 ++ s2 /\ spaces s2 /\ xcontent s1 [] [(root', [])] /\ alike root root'.
Proof.
  intros C N s W.
  assert (Z : exists t1 t2, ts = t1 ++ t2 /\ content t1 [] [(root, [])] /\ content t2 y []).
  { remember ([] : str) as x eqn:EX. remember [(root, y)] as ks eqn:EK. destruct C as [|s0 t ts x ks R C|ts x ks C|tag w a rest x ks A C|tag w a body bx bks rest x ks A CB C]; try discriminate.
    - inversion N.
    - injection EK as <- <- ->. exists [TVoid tag w], rest. split; [reflexivity|]. split; [apply ct_void; [exact A | constructor] | exact C].
    - injection EK as <- <- ->. exists (TOpen tag w :: body ++ TClose tag :: []), rest. split; [cbn [app]; rewrite <- app_assoc; reflexivity|].
      split; [apply ct_elem; [exact A | exact CB | constructor] | exact C]. }
  destruct Z as (t1 & t2 & -> & C1 & C2). destruct (neat_split _ _ _ C1 _ N) as [N1 N2]. apply writes_app in W as (s1 & s2 & -> & W1 & W2).
  destruct (content_written _ _ _ C1 N1 _ W1) as (x' & ks' & X & _ & E & K). rewrite E in X.
  inversion K as [|e e' t t' k k' AL _ K' ET]; subst. inversion K'; subst. rewrite ET in X.
  exists s1, s2, e'. split; [reflexivity|]. split; [exact (tail_spaces _ _ _ C2 eq_refl N2 _ W2)|]. auto.
Qed.

Lemma document_file us version fname title rev ts c s :
  Forall fine us -> Forall ids_safe us ->
  Forall (fun h => plain h /\ Forall xml_char h) ([version; fname; title] ++ match rev with Some r => [r] | None => [] end) ->
  html_doc version fname title rev us = (ts, c) -> writes ts s ->
  exists root, xdocument s root /\ (forall root', xdocument s root' -> root' = root)
    /\ document_shows (emit_rules css_attrs (c_txt c)) (emit_rules fill_css (c_cell c)) version fname title rev us root.
Proof.
  intros F PD P H W. inversion P as [|? ? [PV CV] P1]; subst. inversion P1 as [|? ? [PF CF] P2]; subst. inversion P2 as [|? ? [PT CT] P3]; subst.
  assert (PR : match rev with Some r => plain r | None => True end) by (destruct rev; [inversion P3; subst; tauto | exact Logic.I]).
  assert (CR : match rev with Some r => Forall xml_char r | None => True end) by (destruct rev; [inversion P3; subst; tauto | exact Logic.I]).
  destruct (document_content _ _ _ _ _ _ _ PD H PV PF PT PR) as (rest & root & -> & C & _ & DS).
  assert (N := html_doc_neat _ _ _ _ _ _ _ F PV PF PT PR CV CF CT CR H).
  inversion W as [| | |? ? s1 T W1]; subst. inversion W1 as [|w ? s2 FW W2| |]; subst; [|contradiction].
  destruct (root_written _ _ _ C N _ W2) as (t & b4 & root' & -> & S4 & X & AL).
  assert (XD : xdocument (show TDoctype ++ 10 :: w ++ t ++ b4) root').
  { exists [32], (utf8 "html"), [], (10 :: w), t, b4. split; [cbn [app]; rewrite <- ?app_assoc; reflexivity|]. split; [discriminate|].
    split; [constructor; [left; reflexivity | constructor]|]. split; [xn|]. split; [constructor|].
    split; [constructor; [unfold xml_space; lia | apply tabs_spaces; exact FW]|]. auto. }
  exists root'. split; [exact XD|]. split; [intros r XR; exact (xdocument_det _ _ _ XR XD) | exact (document_alike _ _ _ _ _ _ _ _ _ DS AL)].
Qed.
(** Whatever the indentation, the characters written are an XML document, with one reading, and
    this shows the tables. *)
Theorem C73_file d us version fname title rev ts c s :
  (forall x t, In x (nodes (dx_body d)) -> w_text x = Some t -> Forall (fun c => xml_char c /\ c <> 13) t) ->
  Forall (fun h => plain h /\ Forall xml_char h) ([version; fname; title] ++ match rev with Some r => [r] | None => [] end) ->
  parse_docx d = DOk us -> html_doc version fname title rev us = (ts, c) -> writes ts s ->
  exists root, xdocument s root /\ (forall root', xdocument s root' -> root' = root)
    /\ document_shows (emit_rules css_attrs (c_txt c)) (emit_rules fill_css (c_cell c)) version fname title rev us root.
Proof. intros F P PD. exact (document_file us version fname title rev ts c s (parse_docx_fine _ _ PD F) (parse_docx_safe _ _ PD) P). Qed.
Print Assumptions C73_file.

(** And read by the JSON stage: title and revision, in lower case, and a figure for each table. *)
Corollary C73_read_back d us version fname title rev ts c s :
  (forall x t, In x (nodes (dx_body d)) -> w_text x = Some t -> Forall (fun c => xml_char c /\ c <> 13) t) ->
  Forall (fun h => plain h /\ Forall xml_char h) [version; fname; title; rev] ->
  parse_docx d = DOk us -> html_doc version fname title (Some rev) us = (ts, c) -> writes ts s ->
  exists root, xdocument s root /\ open_doc (Tree root) = inr (root, lower title, lower rev)
    /\ Forall2 (shows (emit_rules css_attrs (c_txt c)) (emit_rules fill_css (c_cell c))) us (figures root).
Proof.
  intros F P PD H W. destruct (C73_file d us version fname title (Some rev) ts c s F P PD H W) as (root & X & _ & DS).
  destruct (C67_read_back _ _ _ _ _ _ _ _ _ PD DS) as (A & _ & B). exists root. auto.
Qed.
Print Assumptions C73_read_back.

(** The file itself, without indentation, is one of those. *)
Lemma html_text_writes ts : writes ts (html_text ts).
Proof.
  induction ts as [|t ts IH]; [constructor|]. unfold html_text. cbn [flat_map]. destruct t; try (apply wr_tok; [exact Logic.I | exact IH]).
  - cbn [show]. rewrite <- !app_assoc. apply (wr_void tag attrs [] ts); [constructor | exact IH].
  - cbn [show app]. apply (wr_nl [] ts); [constructor | exact IH].
Qed.

(** A carriage return in a text does not survive. *)
Definition cr_doc : docx :=
  mkDocx (lx_e "w:document" [] [lx_e "w:body" [] [lx_e "w:tbl" [] [lx_e "w:tr" [] [lx_e "w:tc" [] [lx_e "w:p" []
    [lx_e "w:r" [] [W 0 (utf8 "w:t") [] (Some [97; 13; 98]) []]]]]]]]) None (lx_e "w:styles" [] []).
Theorem C73_cr_refuted : exists us ts c root,
  parse_docx cr_doc = DOk us /\ html_doc (utf8 "1") (utf8 "s") (utf8 "t") (Some (utf8 "r")) us = (ts, c)
  /\ writes ts (html_text ts) /\ xdocument (html_text ts) root
  /\ ~ document_shows (emit_rules css_attrs (c_txt c)) (emit_rules fill_css (c_cell c)) (utf8 "1") (utf8 "s") (utf8 "t") (Some (utf8 "r")) us root.
Proof.
  do 4 eexists. split; [vm_compute; reflexivity|]. split; [vm_compute; reflexivity|]. split; [apply html_text_writes|].
  split; [apply read_xml_iff; vm_compute; reflexivity|].
  intros (xh & xb & x1 & t1 & t2 & t3 & t4 & t5 & t6 & ks & E & _ & US). revert E. vm_compute. intros E. injection E as; subst ks.
  repeat match goal with
  | H : units_show _ _ _ _ |- _ => inversion H; clear H; subst
  | H : rows_show _ _ _ _ _ |- _ => inversion H; clear H; subst
  | H : cells_show _ _ _ _ _ _ |- _ => inversion H; clear H; subst
  | H : shows _ _ _ _ |- _ => inversion H; clear H; subst
  | H : tc_origin _ <> _ |- _ => exfalso; apply H; reflexivity
  | H : Forall2 _ _ _ |- _ => inversion H; clear H; subst
  | H : span_shows _ _ _ |- _ => destruct H as (? & H & _); discriminate H
  end.
Qed.
Print Assumptions C73_cr_refuted.

(** A document that meets the conditions: its file, its reading, and the characters of the text. *)
Definition tx_us : list hunit := match parse_docx tx_doc with DOk us => us | _ => [] end.
Definition tx_ts : list tok := fst (html_doc (utf8 "1.0") (utf8 "spec") (header_title tx_header) (header_revision tx_header) tx_us).
Definition tx_file : str := html_text tx_ts.
Example C73_ex_doc : parse_docx tx_doc = DOk tx_us /\ tx_us <> [].
Proof. split; [vm_compute; reflexivity | vm_compute; discriminate]. Qed.
Example C73_ex_file : exists a b, tx_file = a ++ utf8 "<span>Figure 1: A &amp; B</span>" ++ b.
Proof. exists (firstn 273 tx_file), (skipn (273 + 32) tx_file). vm_compute. reflexivity. Qed.
Example C73_ex_root : exists root, xdocument tx_file root /\ List.length (figures root) = 1%nat.
Proof.
  destruct (read_xml tx_file) as [root|] eqn:E; [|vm_compute in E; discriminate E]. exists root. split; [apply read_xml_iff; exact E|].
  assert (X : option_map (fun r => List.length (figures r)) (read_xml tx_file) = Some 1%nat) by (vm_compute; reflexivity). rewrite E in X. injection X as X. exact X.
Qed.
Example C73_ex_texts : (forall x t, In x (nodes (dx_body tx_doc)) -> w_text x = Some t -> Forall (fun c => xml_char c /\ c <> 13) t)
  /\ Forall (fun h => plain h /\ Forall xml_char h) [utf8 "1.0"; utf8 "spec"; header_title tx_header; utf8 "2.0C"].
Proof.
  split.
  - assert (X : forallb (fun x => match w_text x with Some t => forallb (fun c => xml_charb c && negb (c =? 13)) t | None => true end) (nodes (dx_body tx_doc)) = true) by (vm_compute; reflexivity).
    intros x t I E. rewrite forallb_forall in X. specialize (X x I). rewrite E in X. rewrite forallb_forall in X. apply Forall_forall. intros c C. specialize (X c C).
    apply andb_true_iff in X as [X1 X2]. split; [apply xml_charb_iff; exact X1 | lia].
  - assert (X : forallb (forallb (fun c => xml_charb c && negb (c =? 34) && negb (c =? 38) && negb (c =? 60) && negb (c =? 62) && negb (c =? 9) && negb (c =? 10) && negb (c =? 13)))
      [utf8 "1.0"; utf8 "spec"; header_title tx_header; utf8 "2.0C"] = true) by (vm_compute; reflexivity).
    apply Forall_forall. intros h I. rewrite forallb_forall in X. specialize (X h I). rewrite forallb_forall in X.
    split; apply Forall_forall; intros c C; specialize (X c C); repeat (apply andb_true_iff in X as [X ?]); [lia | apply xml_charb_iff; exact X].
Qed.
