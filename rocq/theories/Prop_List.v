(** Property C45 and the termination of the docx stage. *)
From Coq Require Import NArith ZArith List Bool String Lia.
From Verif Require Import PyStr PyStrFacts Docx SpecQuery SpecRuns SpecList RunProofs ListProofs DocxTotal.
Import ListNotations.
Local Open Scope string_scope.
Local Open Scope list_scope.

(** ** C45 *)

(** Parsing a list that begins with the list paragraph [p] consumes a non-empty beginning [ps] of
    the stream: paragraphs of the same list that are on the level of [p] or deeper, up to where
    the list ends.  The items of the resulting tree are the texts of these paragraphs in order,
    one each, and the lists around an item are those of the outline: a paragraph closes the lists
    of deeper levels, is an item of the innermost open list if that has its level, and otherwise
    opens one new list inside of it. *)
Theorem C45_list d p rest u st' :
  w_tag p = utf8 "w:p" -> (exists n, list_number p n /\ known_list d n) -> parse_list d (p :: rest) = DOk (u, st') ->
  exists l items a i ps open',
    u = HList l items /\ p :: rest = ps ++ st' /\ ps <> []
    /\ list_par d p a i /\ level_props d p l
    /\ Forall (fun q => exists j, list_par d q a j /\ (i <= j)%Z) ps
    /\ ends_list d a i st'
    /\ Forall begun items
    /\ outline d a 0 [mkOpen i l 0] ps (places [(l, 0%nat)] 0 items) open'.
Proof.
  intros TG LP H. unfold parse_list in H. destruct (list_head d p) as [[[l a] i]| |] eqn:HD; cbn [dbind] in H; try discriminate.
  destruct (list_elems d _ (p :: rest) a i) as [[items st1]| |] eqn:LE; cbn [dbind] in H; try discriminate. injection H as <- <-.
  apply list_head_props in HD as (LV & IL & n & ls & N & SP). apply list_elems_ok in LE as (ps & E & EN & B & _ & NE & F & O).
  assert (P : list_par d p a i) by (apply list_par_iff; apply listed_iff in LP; split; [exact TG|]; split; [exact LP|]; split; [exists n, ls; auto | exact IL]).
  destruct (O 0%nat (mkOpen i l 0) [] eq_refl) as (deep & OL & _).
  exists l, items, a, i, ps, (deep ++ [mkOpen i l 0]). split; [reflexivity|]. split; [exact E|].
  split; [exact (NE p rest eq_refl P)|]. split; [exact P|]. split; [exact LV|]. split; [exact F|]. split; [exact EN|]. split; [exact B|]. exact OL.
Qed.
Print Assumptions C45_list.

(** Hence every consumed paragraph gives one item, in order. *)
Corollary C45_items d p rest l items st' :
  w_tag p = utf8 "w:p" -> (exists n, list_number p n /\ known_list d n) -> parse_list d (p :: rest) = DOk (HList l items, st') ->
  exists ps, p :: rest = ps ++ st'
    /\ Forall2 (fun q pl => par_spans d q (snd pl)) ps (places [(l, 0%nat)] 0 items).
Proof.
  intros TG LP H. destruct (C45_list _ _ _ _ _ TG LP H) as (l' & items' & a & i & ps & open' & [= <- <-] & E & _ & _ & _ & _ & _ & _ & O).
  exists ps. split; [exact E|]. clear - O. induction O; constructor; auto.
Qed.
Print Assumptions C45_items.

(** The lists around an item are on strictly increasing levels, and the innermost is on the
    level of its paragraph. *)
Lemma descending_tail o r : descending (o :: r) -> descending r.
Proof. inversion 1; subst; [constructor | assumption]. Qed.
Lemma descending_close i open : descending open -> descending (close i open).
Proof.
  induction open as [|o r IH]; intros D; cbn [close]; [constructor|]. destruct (i <? o_level o)%Z; [apply IH; exact (descending_tail _ _ D) | exact D].
Qed.
Theorem C45_depth d a n open ps out open' : outline d a n open ps out open' -> descending open ->
  Forall2 (fun q pl => exists j lists, list_par d q a j /\ descending lists /\ (exists o r, lists = o :: r /\ o_level o = j)
                      /\ fst pl = map (fun o => (o_props o, o_first o)) (List.rev lists)) ps out.
Proof.
  induction 1 as [|n open p i sps o rest ps out open' P SP CL LV O IH|n open p i sps o rest l ps out open' P SP CL LV LP O IH]; intros D; constructor.
  - exists i, (o :: rest). split; [exact P|]. split; [rewrite <- CL; apply descending_close; exact D|]. split; [exists o, rest; auto | reflexivity].
  - apply IH. rewrite <- CL. apply descending_close. exact D.
  - exists i, (mkOpen i l n :: o :: rest). split; [exact P|].
    split; [constructor; [exact LV | rewrite <- CL; apply descending_close; exact D]|]. split; [exists (mkOpen i l n), (o :: rest); auto | reflexivity].
  - apply IH. constructor; [exact LV|]. rewrite <- CL. apply descending_close. exact D.
Qed.
Print Assumptions C45_depth.

(** Parsing a list terminates, whatever the paragraphs. *)
Theorem C45_terminates d st : parse_list d st <> DFuel.
Proof. apply parse_list_nf. Qed.
Print Assumptions C45_terminates.

(** A list of paragraphs on the levels 0, 2, 1, 0, followed by one of another list. *)
Definition lx_e (t : string) (a : list (string * string)) (k : list welem) : welem :=
  W 0 (utf8 t) (map (fun x => (utf8 (fst x), utf8 (snd x))) a) None k.
Definition lx_par (num ilvl txt : string) : welem :=
  lx_e "w:p" [] [lx_e "w:pPr" [] [lx_e "w:numPr" [] [lx_e "w:ilvl" [("w:val", ilvl)] []; lx_e "w:numId" [("w:val", num)] []]];
                 lx_e "w:r" [] [W 0 (utf8 "w:t") [] (Some (utf8 txt)) []]].
Definition lx_lvl (n t : string) : welem := lx_e "w:lvl" [("w:ilvl", n)] [lx_e "w:start" [("w:val", "1")] []; lx_e "w:numFmt" [("w:val", "decimal")] []; lx_e "w:lvlText" [("w:val", t)] []].
Definition lx_num : welem := lx_e "w:numbering" []
  [lx_e "w:abstractNum" [("w:abstractNumId", "7")] [lx_lvl "0" "%1."; lx_lvl "1" "o"; lx_lvl "2" "-"];
   lx_e "w:abstractNum" [("w:abstractNumId", "8")] [lx_lvl "0" "%1."];
   lx_e "w:num" [("w:numId", "1")] [lx_e "w:abstractNumId" [("w:val", "7")] []];
   lx_e "w:num" [("w:numId", "2")] [lx_e "w:abstractNumId" [("w:val", "8")] []]].
Definition lx_doc : docx := mkDocx (lx_e "w:document" [] []) (match parse_numbering lx_num with DOk n => Some n | _ => None end) (lx_e "w:styles" [] []).
Definition lx_stream : list welem := [lx_par "1" "0" "a"; lx_par "1" "2" "b"; lx_par "1" "1" "c"; lx_par "1" "0" "d"; lx_par "2" "0" "e"].
Example C45_ex : exists l l1 l2, parse_list lx_doc lx_stream =
    DOk (HList l [LItem [mkSpan None (utf8 "a")]; LSub l2 [LItem [mkSpan None (utf8 "b")]]; LSub l1 [LItem [mkSpan None (utf8 "c")]];
                  LItem [mkSpan None (utf8 "d")]], [lx_par "2" "0" "e"])
  /\ exists n, list_number (lx_par "1" "0" "a") n /\ known_list lx_doc n.
Proof. do 3 eexists. split; [vm_compute; reflexivity|]. apply listed_iff. vm_compute. reflexivity. Qed.

(** ** C63 *)

(** Reading a docx document ends with a result or an exception. *)
Theorem C63_terminates d : (exists us, parse_docx d = DOk us) \/ (exists e, parse_docx d = DErr e).
Proof. destruct (parse_docx d) as [us|e|] eqn:E; [left | right | exfalso; exact (parse_docx_nf d E)]; eauto. Qed.
Print Assumptions C63_terminates.
