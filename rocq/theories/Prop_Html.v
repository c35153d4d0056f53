(** Properties of the HTML document made from a docx document: C46 (lists), C53 (table ids). *)
From Coq Require Import NArith ZArith List Bool String Lia ZifyBool ZifyNat ZifyN.
From Verif Require Import PyTables PyStr PyStrFacts Regex Regexes RegexFacts RangeProofs Xml RowIter Docx Render SpecText SpecFmt SpecGrid SpecHtml Prop_Fmt GridProofs HtmlProofs.
Import ListNotations.
Local Open Scope string_scope.
Local Open Scope list_scope.

Theorem reached_good c : reached c -> good c.
Proof.
  induction 1 as [|p c n c' _ IH E|f c n c' _ IH E]; [apply good_none | |].
  - exact (proj1 (txt_class_rule _ _ _ _ E IH)).
  - exact (proj1 (cell_class_rule _ _ _ _ E IH)).
Qed.

(** ** C46: lists *)

Lemma span_texts_elem t a x (ks : list kid) : span_texts (Elem t a x ks) = (if seqb t (utf8 "span") then [x] else []) ++ flat_map (fun k : kid => span_texts (fst k)) ks.
Proof. reflexivity. Qed.
Lemma spans_texts r sps ks : Forall2 (span_shows r) sps ks -> flat_map (fun k : kid => span_texts (fst k)) ks = map sp_text sps.
Proof.
  induction 1 as [|sp k sps ks (a & -> & _) _ IH]; [reflexivity|]. cbn [flat_map fst map]. rewrite IH. reflexivity.
Qed.
Lemma lists_texts r : (forall l its e, list_shows r l its e -> span_texts e = flat_map item_texts its)
  /\ (forall its ks, items_show r its ks -> flat_map (fun k : kid => span_texts (fst k)) ks = flat_map item_texts its).
Proof.
  apply lists_mut.
  - intros l its x ks _ _ H. rewrite span_texts_elem, H. unfold lvl_tag. destruct (is_ordered l); reflexivity.
  - reflexivity.
  - intros sps its x ks tail rest _ _ _ F _ H. cbn [flat_map fst item_texts]; rewrite span_texts_elem; change (seqb (utf8 "li") (utf8 "span")) with false; cbn [app]. rewrite H, (spans_texts _ _ _ F). reflexivity.
  - intros sps l sub its x ks e tl tail rest _ _ _ F _ HS _ H. cbn [flat_map fst item_texts]; rewrite span_texts_elem; change (seqb (utf8 "li") (utf8 "span")) with false; cbn [app].
    rewrite H, flat_map_app, (spans_texts _ _ _ F). cbn [flat_map fst app]. rewrite HS, app_nil_r, <- !app_assoc. reflexivity.
  - intros l sub its x e tl tail rest _ _ _ _ HS _ H. cbn [flat_map fst item_texts]; rewrite span_texts_elem; change (seqb (utf8 "li") (utf8 "span")) with false; cbn [app]. cbn [flat_map fst]. rewrite H, HS, app_nil_r. reflexivity.
Qed.

(** Whatever class names there are already: the tags written for a list read as one element, in
    exactly one way, which shows the list, item by item; its texts are those of the items in
    order. *)
Theorem C46_list l its c ts c' : reached c -> render_list l its c = (ts, c') ->
  exists e, content ts [] [(e, [10%N])]
    /\ (forall x ks, content ts x ks -> x = [] /\ ks = [(e, [10%N])])
    /\ list_shows (emit_rules css_attrs (c_txt c')) l its e
    /\ span_texts e = flat_map item_texts its.
Proof.
  intros R H. destruct (render_list_ok _ _ _ _ _ H (reached_good _ R)) as (_ & _ & e & S & C).
  specialize (C [] [] [] ct_nil). rewrite app_nil_r in C. exists e. split; [exact C|]. split; [|split; [exact S | exact (proj1 (lists_texts _) _ _ _ S)]].
  intros x ks C'. destruct (content_det _ _ _ _ _ C C') as [<- <-]. auto.
Qed.
Print Assumptions C46_list.

(** ** C53: ids *)

Theorem C53_id rows n : find_id rows = Some n <->
  exists es sp o f more others sps more_es,
    rows = (TC (utf8 "td") es sp o f :: more) :: others /\ es = HPar sps :: more_es
    /\ numeral n /\ exists rest, List.concat (map sp_text sps) = utf8 "Figure " ++ n ++ utf8 ":" ++ rest.
Proof.
  unfold find_id. destruct rows as [|[|[tg es sp o f] more] others].
  - split; [discriminate|]. intros (? & ? & ? & ? & ? & ? & ? & ? & E & _). discriminate.
  - split; [discriminate|]. intros (? & ? & ? & ? & ? & ? & ? & ? & E & _). discriminate.
  - cbn [tc_tag tc_elems]. split.
    + destruct (seqb tg (utf8 "td")) eqn:T; [|discriminate]. apply seqb_eq in T. subst tg. destruct es as [|[sps| |] es]; try discriminate.
      intros H. exists (HPar sps :: es), sp, o, f, more, others, sps, es. split; [reflexivity|]. split; [reflexivity|].
      destruct (spans_text sps) as [|a t] eqn:E; [discriminate|]. rewrite <- E in H. rewrite TABLE_ID_REGEX_spec in H.
      destruct (table_id_split (spans_text sps)) as [d|] eqn:D; [|discriminate]. injection H as <-.
      unfold table_id_split in D. destruct (startswith s_Figure_sp (spans_text sps)) eqn:S; [|discriminate].
      apply startswith_app in S as (u & S). rewrite S, skipn_app_len in D.
      destruct (take_while isdigit u) as [|d0 ds] eqn:TW; [discriminate|]. destruct (drop_while isdigit u) as [|c0 r] eqn:DW; [discriminate|].
      destruct (N.eqb_spec c0 58) as [->|]; [|discriminate]. injection D as <-. split.
      * split; [discriminate|]. unfold all. rewrite <- TW. apply Forall_forall. clear. intros c. induction u as [|x u IH]; cbn [take_while]; [intros []|].
        destruct (isdigit x) eqn:X; [|intros []]. intros [<-|H]; [exact X | exact (IH H)].
      * exists r. unfold spans_text in S. rewrite flat_map_concat_map in S. etransitivity; [exact S|]. change (utf8 "Figure ") with s_Figure_sp. f_equal. rewrite <- (take_drop isdigit u), TW, DW. reflexivity.
    + intros (es' & sp' & o' & f' & more' & others' & sps & mes & E & -> & NM & rest & T). injection E as -> -> -> -> -> _ _.
      rewrite seqb_refl.
      assert (T' : spans_text sps = utf8 "Figure " ++ n ++ utf8 ":" ++ rest) by (etransitivity; [apply flat_map_concat_map | exact T]). clear T. rename T' into T.
      assert (X : re_match TABLE_ID_REGEX (spans_text sps) = Some [(G_id, n)]).
      { rewrite T. rewrite TABLE_ID_REGEX_spec.
        replace (table_id_split (utf8 "Figure " ++ n ++ utf8 ":" ++ rest)) with (Some n); [reflexivity|].
        symmetry. unfold table_id_split. change (utf8 "Figure ") with s_Figure_sp.
        assert (startswith s_Figure_sp (s_Figure_sp ++ n ++ utf8 ":" ++ rest) = true) as -> by (apply startswith_app; eauto).
        rewrite skipn_app_len. destruct NM as [N1 N2].
        assert (take_while isdigit (n ++ utf8 ":" ++ rest) = n /\ drop_while isdigit (n ++ utf8 ":" ++ rest) = utf8 ":" ++ rest) as [-> ->].
        { clear T N1. unfold all in N2. induction N2 as [|c n C _ IH]; [split; reflexivity|]. cbn [app take_while drop_while]. rewrite C. destruct IH as [-> ->]. auto. }
        destruct n; [congruence | reflexivity]. }
      apply (f_equal (fun o => match o with Some g => group G_id g | None => None end)) in X. cbn beta iota in X.
      assert (NE : spans_text sps <> []) by (intros E; rewrite E in T; discriminate T).
      clear T. revert X NE. destruct (spans_text sps); [congruence|]. intros X _. exact X.
Qed.
Print Assumptions C53_id.
