(** C53, for the tables of the HTML file. *)
From Coq Require Import NArith ZArith List Bool String Lia ZifyBool ZifyN ZifyNat Permutation.
From Verif Require Import PyTables PyStr PyStrFacts Xml RowIter Docx Render SpecText SpecFmt SpecDocx SpecGrid SpecHtml SpecTables SpecXml
  GridProofs TableHtml TablesOnce XmlProofs XmlText XmlNeat DocxTotal HtmlProofs Prop_Docx Prop_Html Prop_Tables Prop_Xml Prop_End Prop_Deep.
Import ListNotations.
Local Open Scope string_scope.
Local Open Scope list_scope.

(** The first cell of the table is a td, and its first element a paragraph that begins with the
    words "Figure n:". *)
Definition opens_figure (e : elem) (n : str) : Prop :=
  exists tr t1 r1 td t2 r2 p t3 r3 rest, e_kids e = (tr, t1) :: r1 /\ e_kids tr = (td, t2) :: r2 /\ e_tag td = utf8 "td"
    /\ e_kids td = (p, t3) :: r3 /\ e_tag p = utf8 "p"
    /\ numeral n /\ List.concat (span_texts p) = utf8 "Figure " ++ n ++ utf8 ":" ++ rest.

Lemma first_block hf y n tcs es D n' : blocks hf y [] 0 n tcs es D n' -> forall i r, es = i :: r -> exists g, nth_error hf i = Some g /\ g_top g = y /\ g_left g = 0%Z.
Proof.
  remember 0%nat as x eqn:X. remember (@nil nat) as D0 eqn:E0. intros B. induction B as [x n|x n tc tcs k g es D n' N C T L OP B IH|x n tc tcs k i es D n' I OP B IH]; intros j r E; subst.
  - discriminate.
  - destruct k as [|k]; cbn [repeat app] in E.
    + exact (IH eq_refl j r E).
    + injection E as <- _. exists g. auto.
  - destruct I.
Qed.
Lemma first_origin d x u s s' fuel w i t row rows : (forall tc n, In tc (SpecTables.table_cells x) -> tc_grid_span tc = DOk n -> (0 <= n)%Z) ->
  parse_table (parse_any d fuel) x s = DOk (Some u, s') -> u = HTable w i ((t :: row) :: rows) -> tc_origin t = (0%Z, 0%Z).
Proof.
  intros SP PT ->. destruct (parse_table_cells _ _ _ _ _ PT) as (m & rs & G & E0 & F); injection E0 as -> -> <-.
  unfold grid in G. destruct (grid_rows 0 (w_children "w:tr" x) [] []) as [[h mi]| |] eqn:GR; cbn [dbind] in G; try discriminate. injection G as <-.
  destruct (grid_rows_blocks h _ _ _ _ [] _ _ (fun tr tc z I J => SP tc z (proj2 (in_flat_map _ _ _) (ex_intro _ tr (conj I J)))) GR (ext_refl _)) as (m1 & E & RB); [intros a j X; exfalso; apply X; reflexivity|].
  cbn [app] in E. subst mi. inversion RB as [|? ? ? tr trs es D n' m' B RB']; subst; cbn [map] in F; [inversion F|].
  inversion F as [|? ? ? ? F1 _]; subst. inversion F1 as [|p ? ps ? C _ FE]; subst.
  destruct es as [|j es]; [discriminate FE|]. destruct (first_block _ _ _ _ _ _ _ B j es eq_refl) as (g & N & T & L). cbn [flat_map] in FE. rewrite N in FE. injection FE as -> _.
  destruct C as (us & s1 & s2 & _ & ->). cbn [tc_origin snd]. rewrite T, L. reflexivity.
Qed.

Theorem C53_document d us tr cr version fname title rev root :
  SpecTables.distinct d -> spans_ok d -> parse_docx d = DOk us -> document_shows tr cr version fname title rev us root ->
  forall e n, In e (table_elems root) -> attr (utf8 "id") e = Some n <-> opens_figure e n.
Proof.
  intros DI SP PD DS e n I. destruct (C44_once _ _ _ _ _ _ _ _ _ DI SP PD DS) as (l & P & F).
  assert (X : exists x, In x (w_all "w:tbl" (dx_body d)) /\ renders d tr cr x e).
  { clear - I P F. assert (Q : forall x, In x l -> In x (w_all "w:tbl" (dx_body d))) by (intros x; apply Permutation_in; exact P). clear P.
    induction F as [|x e' l es R F IH]; [destruct I|]. destruct I as [->|I]; [exists x; split; [apply Q; left; reflexivity | exact R] | apply IH; [exact I | intros y J; apply Q; right; exact J]]. }
  destruct X as (x & IX & u & (fuel & s & s' & PT) & SX). destruct (parse_table_cells _ _ _ _ _ PT) as (m & rows & G & -> & F2).
  inversion SX as [| |wid id rows' x0 ks BX RS]; subst.
  assert (A : attr (utf8 "id") (Elem (utf8 "table") (match find_id rows with Some ((_ :: _) as i) => [(utf8 "id", i)] | _ => [] end) x0 ks) = Some n <-> find_id rows = Some n).
  { destruct (find_id rows) as [[|a i]|] eqn:FI; [|reflexivity|split; discriminate]. apply C53_id in FI as (? & ? & ? & ? & ? & ? & ? & ? & _ & _ & (NE & _) & _). exfalso. apply NE. reflexivity. }
  rewrite A, C53_id. clear A. split.
  - intros (es & sp & o & f & more & others & sps & mes & -> & -> & NU & rest & TX).
    pose proof (first_origin d x _ s s' fuel _ _ _ _ _ (fun tc z IC E => SP x tc z IX IC (proj1 (spans_columns_iff _ _) E)) PT eq_refl) as O. cbn [tc_origin] in O. subst o.
    inversion RS as [|? ? ? xr kr tail krest B1 B2 CS RS']; subst.
    inversion CS as [|? ? ? ? ? O _|? ? ? ? a ku tl kr' O CA US B3 CS']; subst; [exfalso; apply O; reflexivity|]. cbn [tc_elems] in US. cbn [tc_tag].
    inversion US as [|? ? ep tp kp SP' B4 US']; subst. inversion SP' as [sps' xp kp' B5 FS| |]; subst.
    exists (Elem (utf8 "tr") [] xr ((Elem (utf8 "td") a [] ((Elem (utf8 "p") [] xp kp', tp) :: kp), tl) :: kr')), tail, krest, (Elem (utf8 "td") a [] ((Elem (utf8 "p") [] xp kp', tp) :: kp)), tl, kr', (Elem (utf8 "p") [] xp kp'), tp, kp, rest.
    repeat (split; [reflexivity|]). split; [exact NU|]. rewrite span_texts_elem. change (seqb (utf8 "p") (utf8 "span")) with false. cbn [app]. rewrite (spans_texts _ _ _ FS). exact TX.
  - intros (etr & t1 & r1 & td & t2 & r2 & p & t3 & r3 & rest & K1 & K2 & T1 & K3 & T2 & NU & TX). cbn [e_kids] in K1. subst ks.
    inversion RS as [|? row rows0 xr kr tail krest B1 B2 CS RS' EY]; subst. cbn [e_kids] in K2. subst kr.
    destruct row as [|t row]; [inversion CS|]. pose proof (first_origin d x _ s s' fuel _ _ _ _ _ (fun tc z IC E => SP x tc z IX IC (proj1 (spans_columns_iff _ _) E)) PT eq_refl) as O.
    inversion CS as [|? ? ? ? ? O' _|? ? ? ? a ku tl kr' O' CA US B3 CS']; subst; [congruence|]. cbn [e_tag] in T1. cbn [e_kids] in K3. subst ku.
    destruct t as [tg es sp o f]. cbn [tc_tag tc_elems] in *. subst tg.
    inversion US as [|u us0 ? ? ? SP' B4 US']; subst. destruct u as [sps|l' its|w i rws].
    + inversion SP' as [? xp kp' B5 FS| |]; subst. exists (HPar sps :: us0), sp, o, f, row, rows0, sps, us0. split; [reflexivity|]. split; [reflexivity|]. split; [exact NU|]. exists rest.
      rewrite span_texts_elem in TX. change (seqb (utf8 "p") (utf8 "span")) with false in TX. cbn [app] in TX. rewrite (spans_texts _ _ _ FS) in TX. exact TX.
    + exfalso. inversion SP' as [|? ? ? LS|]; subst. inversion LS; subst. cbn [e_tag] in T2. unfold lvl_tag in T2. destruct (is_ordered _); discriminate T2.
    + exfalso. inversion SP'; subst. discriminate T2.
Qed.
Print Assumptions C53_document.

(** The file as text. *)
Theorem C53_file d us version fname title rev ts c s root :
  (forall x t, In x (nodes (dx_body d)) -> w_text x = Some t -> Forall (fun c => xml_char c /\ c <> 13%N) t) ->
  Forall (fun h => SpecDocx.plain h /\ Forall xml_char h) ([version; fname; title] ++ match rev with Some r => [r] | None => [] end) ->
  SpecTables.distinct d -> spans_ok d -> parse_docx d = DOk us -> html_doc version fname title rev us = (ts, c) -> Render.writes ts s -> xdocument s root ->
  forall e n, In e (table_elems root) -> attr (utf8 "id") e = Some n <-> opens_figure e n.
Proof.
  intros TX PL DI SP PD HD WR XD. destruct (C73_file d us version fname title rev ts c s TX PL PD HD WR) as (root' & _ & U & DS). specialize (U root XD). subst root'.
  exact (C53_document _ _ _ _ _ _ _ _ _ DI SP PD DS).
Qed.
Print Assumptions C53_file.

(** The document of C79 has a titled table and one in a cell of it. *)
Example C53_ids_ex : exists root, xdocument dp_file root /\ map (attr (utf8 "id")) (table_elems root) = [Some (utf8 "8"); None]
  /\ forall e n, In e (table_elems root) -> attr (utf8 "id") e = Some n <-> opens_figure e n.
Proof.
  destruct (read_xml dp_file) as [root|] eqn:E; [|vm_compute in E; discriminate E]. assert (XD : xdocument dp_file root) by (apply read_xml_iff; exact E). exists root.
  assert (PD : parse_docx dp_doc = DOk dp_us) by (vm_compute; reflexivity).
  assert (HD : html_doc (utf8 "1.0") (utf8 "spec") (utf8 "Demo Spec") (Some (utf8 "1.0")) dp_us = (fst dp_html, snd dp_html)) by apply surjective_pairing.
  split; [exact XD|]. split.
  - assert (X : option_map (fun r => map (attr (utf8 "id")) (table_elems r)) (read_xml dp_file) = Some [Some (utf8 "8"); None]) by (vm_compute; reflexivity). rewrite E in X. injection X as X. exact X.
  - exact (C53_file dp_doc dp_us (utf8 "1.0") (utf8 "spec") (utf8 "Demo Spec") (Some (utf8 "1.0")) _ _ dp_file root dp_texts (proj2 en_texts) dp_distinct dp_spans PD HD (html_text_writes _) XD).
Qed.
