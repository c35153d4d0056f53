(** Properties of the docx stage's smaller parts: C47 (escaping), C48 (CSS classes), C49
    (merging), C50 (switched-off decoration), C51 (styles), C52 (streams), C54 (header). *)
From Coq Require Import NArith ZArith List Bool String Lia ZifyBool ZifyN Relations.Relation_Operators.
From Verif Require Import PyTables PyStr PyStrFacts Regex Regexes RegexFacts RangeProofs Docx Render SpecQuery SpecFmt QueryProofs.
Import ListNotations.
Local Open Scope string_scope.
Local Open Scope list_scope.
Local Open Scope N_scope.

(** ** C47 *)

Definition esc1 (c : N) : str :=
  if c =? 38 then utf8 "&amp;" else if c =? 60 then utf8 "&lt;" else if c =? 62 then utf8 "&gt;"
  else if c =? 34 then utf8 "&quot;" else if c =? 39 then utf8 "&#x27;" else [c].

Lemma replace_app c by_ a b : replace_char c by_ (a ++ b) = replace_char c by_ a ++ replace_char c by_ b.
Proof. unfold replace_char. apply flat_map_app. Qed.

Lemma escape_chars t : html_escape t = flat_map esc1 t.
Proof.
  unfold html_escape. induction t as [|c t IH]; [reflexivity|].
  change (c :: t) with ([c] ++ t). rewrite !replace_app, IH, flat_map_app. f_equal. clear IH t.
  unfold esc1. cbn [flat_map app replace_char].
  destruct (N.eqb_spec c 38) as [->|N1]; [reflexivity|].
  cbn [flat_map app replace_char]. unfold replace_char. cbn [flat_map app].
  destruct (N.eqb_spec c 60) as [->|N2]; [reflexivity|]. cbn [flat_map app].
  destruct (N.eqb_spec c 62) as [->|N3]; [reflexivity|]. cbn [flat_map app].
  destruct (N.eqb_spec c 34) as [->|N4]; [reflexivity|]. cbn [flat_map app].
  destruct (N.eqb_spec c 39) as [->|N5]; reflexivity.
Qed.

(** Rendered text has none of the characters "<", ">", quote and apostrophe; reading it, where
    every "&" has to begin a reference, gives the text back and nothing else. *)
Theorem C47_reversible t :
  reads (html_escape t) t
  /\ (forall t', reads (html_escape t) t' -> t' = t)
  /\ ~ In 60 (html_escape t) /\ ~ In 62 (html_escape t) /\ ~ In 34 (html_escape t) /\ ~ In 39 (html_escape t).
Proof.
  rewrite escape_chars.
  assert (E : forall c, exists n, esc1 c = n /\ ((In (n, c) references) \/ (n = [c] /\ c <> 38 /\ c <> 60 /\ c <> 62 /\ c <> 34 /\ c <> 39))).
  { intros c. exists (esc1 c). split; [reflexivity|]. unfold esc1, references. cbn [In].
    destruct (N.eqb_spec c 38) as [->|N1]; [left; auto|]. destruct (N.eqb_spec c 60) as [->|N2]; [left; auto|].
    destruct (N.eqb_spec c 62) as [->|N3]; [left; auto|]. destruct (N.eqb_spec c 34) as [->|N4]; [left; auto|].
    destruct (N.eqb_spec c 39) as [->|N5]; [left; auto 7|]. right. repeat split; assumption. }
  split; [|split].
  - induction t as [|c t IH]; [constructor|]. cbn [flat_map]. destruct (E c) as (n & -> & [R|(-> & N1 & N2 & _)]).
    + apply rd_ref; assumption.
    + apply rd_char; assumption.
  - induction t as [|c t IH]; intros t' R.
    + cbn in R. inversion R as [| |n c s u Hn Hs E1]; [reflexivity|]. exfalso. apply app_eq_nil in E1 as [-> _].
      cbn in Hn. intuition discriminate.
    + cbn [flat_map] in R. destruct (E c) as (n & En & D). rewrite En in R. clear En. destruct D as [D|(-> & N1 & N2 & _)].
      * assert (exists u, t' = c :: u /\ reads (flat_map esc1 t) u) as (u & -> & Ru).
        { inversion R as [E1|c' s u N1 N2 Hs E1|n' c' s u Hn Hs E1].
          - exfalso. cbn in D. repeat (destruct D as [D|D]; [injection D as <- <-; discriminate|]). destruct D.
          - exfalso. cbn in D. repeat (destruct D as [D|D]; [injection D as <- <-; cbn in E1; injection E1 as -> _; congruence|]). destruct D.
          - cbn in D, Hn.
            repeat (destruct D as [D|D]; [injection D as <- <-;
               repeat (destruct Hn as [Hn|Hn]; [injection Hn as <- <-; cbn in E1; try discriminate; injection E1 as E1; subst; eauto|]); destruct Hn |]).
            destruct D. }
        f_equal. apply IH. exact Ru.
      * inversion R as [E1|c' s u M1 M2 Hs E1|n' c' s u Hn Hs E1].
        -- subst. f_equal. apply IH. exact Hs.
        -- exfalso. cbn in Hn. repeat (destruct Hn as [Hn|Hn]; [injection Hn as <- <-; cbn in E1; injection E1 as <- _; congruence|]). destruct Hn.
  - assert (X : forall x, (x = 60 \/ x = 62 \/ x = 34 \/ x = 39) -> ~ In x (flat_map esc1 t)).
    { intros x Hx I. apply in_flat_map in I as (c & _ & I). destruct (E c) as (n & En & D). rewrite En in I. clear En.
      destruct D as [D|(-> & D)].
      - cbn in D. repeat (destruct D as [D|D]; [injection D as <- <-; cbn in I; intuition lia|]). destruct D.
      - destruct I as [->|[]]. lia. }
    split; [|split; [|split]]; apply X; auto.
Qed.
Print Assumptions C47_reversible.

Example C47_ex : html_escape (utf8 "a<b & 'c'") = utf8 "a&lt;b &amp; &#x27;c&#x27;".
Proof. reflexivity. Qed.

(** ** C52 *)

Lemma performed_expected {A} ops : forall l : list A,
  performed ops (s_open l) = (fst (expected ops l), s_open (snd (expected ops l))).
Proof.
  induction ops as [|op ops IH]; intros l; [reflexivity|]. cbn [performed expected].
  assert (S : match op with
      | OpEnd => (REnd (s_end (s_open l)), s_open l)
      | OpPeek => (match s_peek (s_open l) with Some a => RElem a | None => RStop end, s_open l)
      | OpConsume => match s_consume (s_open l) with Some (a, s') => (RElem a, s') | None => (RStop, s_open l) end end
    = let '(x, l') := match op, l with
                      | OpEnd, [] => (REnd true, l) | OpEnd, _ => (REnd false, l) | _, [] => (RStop, l)
                      | OpPeek, a :: _ => (RElem a, l) | OpConsume, a :: l' => (RElem a, l') end in (x, s_open l')).
  { destruct op, l as [|a [|b l]]; reflexivity. }
  rewrite S. destruct (match op, l with
                      | OpEnd, [] => (REnd true, l) | OpEnd, _ => (REnd false, l) | _, [] => (RStop, l)
                      | OpPeek, a :: _ => (RElem a, l) | OpConsume, a :: l' => (RElem a, l') end) as [x l'].
  rewrite IH. destruct (expected ops l') as [xs l'']. reflexivity.
Qed.

(** Any sequence of operations on the stream of a sequence gives what the sequence says. *)
Theorem C52_operations {A} (l : list A) ops :
  fst (performed ops (s_open l)) = fst (expected ops l).
Proof. rewrite performed_expected. reflexivity. Qed.

(** Consuming to the end gives the whole sequence, then StopIteration for ever. *)
Theorem C52_all {A} (l : list A) n :
  fst (performed (repeat OpConsume (List.length l + n)) (s_open l)) = map RElem l ++ repeat RStop n.
Proof.
  rewrite performed_expected. cbn [fst]. induction l as [|a l IH]; cbn [List.length plus repeat].
  - induction n as [|n IH]; cbn [repeat]; [reflexivity|]. cbn [expected]. destruct (expected (repeat OpConsume n) []) eqn:E.
    cbn in *. congruence.
  - cbn [expected]. destruct (expected (repeat OpConsume (List.length l + n)) l). cbn in *. congruence.
Qed.
Print Assumptions C52_operations.
Print Assumptions C52_all.

Example C52_ex : fst (performed [OpPeek; OpConsume; OpEnd; OpConsume; OpEnd; OpPeek] (s_open [1; 2]))
  = [RElem 1; RElem 1; REnd false; RElem 2; REnd true; RStop].
Proof. reflexivity. Qed.

(** ** Run properties: C49, C50 *)

Definition piece1 p := match rp_bold p with Some b => Some (utf8 (if b then "bold" else "normal")) | None => None end.
Definition piece2 p := match rp_italics p with Some b => Some (utf8 (if b then "italic" else "normal")) | None => None end.
Definition piece3 p := match rp_underline p, rp_strike p with
  | Some _, Some _ => Some (utf8 "underline line-through")
  | Some _, None => Some (utf8 "underline") | None, Some _ => Some (utf8 "line-through") | None, None => None end.
Definition piece4 p := match rp_valign p with
  | Some VBaseline => Some (utf8 "baseline") | Some VSubscript => Some (utf8 "sub") | Some VSuperscript => Some (utf8 "super")
  | None => None end.
Definition piece5 p := match rp_color p with Some c => Some (35 :: c) | None => None end.
Definition opt_pair (k : string) (o : option str) : list (str * str) :=
  match o with Some v => [(utf8 k, v)] | None => [] end.

Lemma css_pieces p : css_attrs p =
  opt_pair "font-weight" (piece1 p) ++ opt_pair "font-style" (piece2 p) ++ opt_pair "text-decoration-line" (piece3 p)
  ++ opt_pair "vertical-align" (piece4 p) ++ opt_pair "color" (piece5 p).
Proof.
  unfold css_attrs, piece1, piece2, piece3, piece4, piece5.
  f_equal; [destruct (rp_bold p); reflexivity|]. f_equal; [destruct (rp_italics p); reflexivity|].
  f_equal; [destruct (rp_underline p), (rp_strike p); reflexivity|].
  f_equal; [destruct (rp_valign p) as [[]|]; reflexivity|]. destruct (rp_color p); reflexivity.
Qed.

Lemma d_get_app {V} k (a b : list (str * V)) : d_get k (a ++ b) = match d_get k a with Some v => Some v | None => d_get k b end.
Proof. unfold d_get. induction a as [|[k' v] a IH]; cbn [app find fst]; [reflexivity|]. destruct (seqb k' k); [reflexivity | exact IH]. Qed.

Lemma d_get_opt k s o : d_get k (opt_pair s o) = if seqb (utf8 s) k then o else None.
Proof. unfold d_get, opt_pair. destruct o as [v|]; cbn [find fst snd]; destruct (seqb (utf8 s) k); reflexivity. Qed.

Ltac css_keys := rewrite css_pieces, !d_get_app, !d_get_opt;
  repeat match goal with |- context [seqb (utf8 ?a) (utf8 ?b)] =>
    let r := eval vm_compute in (seqb (utf8 a) (utf8 b)) in change (seqb (utf8 a) (utf8 b)) with r end; cbv iota.

Lemma css1 p : css_get "font-weight" (css_attrs p) = piece1 p.
Proof. unfold css_get. css_keys. destruct (piece1 p); reflexivity. Qed.
Lemma css2 p : css_get "font-style" (css_attrs p) = piece2 p.
Proof. unfold css_get. css_keys. destruct (piece2 p); reflexivity. Qed.
Lemma css3 p : css_get "text-decoration-line" (css_attrs p) = piece3 p.
Proof. unfold css_get. css_keys. destruct (piece3 p); reflexivity. Qed.
Lemma css4 p : css_get "vertical-align" (css_attrs p) = piece4 p.
Proof. unfold css_get. css_keys. destruct (piece4 p); reflexivity. Qed.
Lemma css5 p : css_get "color" (css_attrs p) = piece5 p.
Proof. unfold css_get. css_keys. destruct (piece5 p); reflexivity. Qed.

(** Equality of the attribute maps is equality of the lists. *)
Lemma css_ext p q : same_css (css_attrs p) (css_attrs q) <-> css_attrs p = css_attrs q.
Proof.
  split; [|intros E k; rewrite E; reflexivity]. intros H.
  rewrite (css_pieces p), (css_pieces q).
  rewrite <- (css1 p), <- (css2 p), <- (css3 p), <- (css4 p), <- (css5 p), <- (css1 q), <- (css2 q), <- (css3 q), <- (css4 q), <- (css5 q).
  unfold css_get. rewrite !H. reflexivity.
Qed.

Lemma attrs_eqb_eq a b : attrs_eqb a b = true <-> a = b.
Proof.
  revert b. induction a as [|[k v] a IH]; intros [|[k' v'] b]; cbn; split; try congruence.
  - intros H. apply andb_prop in H as [H H3]. apply andb_prop in H as [H1 H2]. apply seqb_eq in H1, H2. apply IH in H3. congruence.
  - intros [= -> -> ->]. rewrite !seqb_refl. cbn. apply IH. reflexivity.
Qed.

Definition no_format : rprops := mkRp None None None None None None.

(** Merging takes weight, style, alignment and colour from the overriding side if set there and
    from the base otherwise; decorations of both sides add up. *)
Theorem C49_merge a b :
  (forall k, In k ["font-weight"; "font-style"; "vertical-align"; "color"] ->
     css_get k (css_attrs (rp_merge a b))
     = match css_get k (css_attrs b) with Some v => Some v | None => css_get k (css_attrs a) end)
  /\ (forall d, In d [utf8 "underline"; utf8 "line-through"] ->
        (let shows p := exists l, css_get "text-decoration-line" (css_attrs p) = Some (join (utf8 " ") l) /\ In d l
           /\ forall x, In x l -> In x [utf8 "underline"; utf8 "line-through"] in
         shows (rp_merge a b) <-> shows a \/ shows b)).
Proof.
  split.
  - intros k K. cbn in K. destruct K as [<-|[<-|[<-|[<-|[]]]]]; rewrite ?css1, ?css2, ?css4, ?css5;
      unfold piece1, piece2, piece4, piece5, rp_merge; cbn [rp_bold rp_italics rp_valign rp_color].
    + destruct (rp_bold b), (rp_bold a); reflexivity.
    + destruct (rp_italics b), (rp_italics a); reflexivity.
    + destruct (rp_valign b) as [[]|], (rp_valign a) as [[]|]; reflexivity.
    + destruct (rp_color b), (rp_color a); reflexivity.
  - intros d D shows.
    set (U := utf8 "underline") in *. set (T := utf8 "line-through") in *.
    assert (S : forall p, shows p <-> (d = U /\ rp_underline p <> None) \/ (d = T /\ rp_strike p <> None)).
    { intros p. unfold shows. rewrite css3. split.
      - intros (l & E & I & X).
        assert (L : forall x, In x l -> ~ In 32 x) by (intros x Hx; apply X in Hx; destruct Hx as [<-|[<-|[]]]; vm_compute; intuition discriminate).
        assert (J : forall l, (forall x, In x l -> In x [U; T]) -> In d l ->
            (join (utf8 " ") l = U -> d = U) /\ (join (utf8 " ") l = T -> d = T)).
        { clear. intros l X I. destruct l as [|x l]; [destruct I|]. destruct l as [|y l].
          - destruct I as [->|[]]. cbn. auto.
          - assert (B : In 32 (join (utf8 " ") (x :: y :: l))) by (cbn [join]; rewrite !in_app_iff; right; left; left; reflexivity).
            split; intros E; rewrite E in B; vm_compute in B; intuition discriminate. }
        specialize (J l X I). destruct J as [J1 J2].
        unfold piece3 in E. destruct (rp_underline p), (rp_strike p); try discriminate.
        + destruct D as [<-|[<-|[]]]; [left|right]; split; congruence.
        + injection E as E. left. split; [apply J1; symmetry; exact E | discriminate].
        + injection E as E. right. split; [apply J2; symmetry; exact E | discriminate].
      - intros [(-> & H)|(-> & H)]; unfold piece3.
        + destruct (rp_underline p); [|congruence]. destruct (rp_strike p).
          * exists [U; T]. split; [reflexivity|]. split; [left; reflexivity | auto].
          * exists [U]. split; [reflexivity|]. split; [left; reflexivity|]. intros x [->|[]]; left; reflexivity.
        + destruct (rp_strike p); [|congruence]. destruct (rp_underline p).
          * exists [U; T]. split; [reflexivity|]. split; [right; left; reflexivity | auto].
          * exists [T]. split; [reflexivity|]. split; [left; reflexivity|]. intros x [->|[]]; right; left; reflexivity. }
    rewrite !S. unfold rp_merge. cbn [rp_underline rp_strike]. unfold or_else.
    destruct (rp_underline b), (rp_strike b), (rp_underline a), (rp_strike a); intuition congruence.
Qed.

(** It is associative and the empty format is its identity on both sides. *)
Theorem C49_algebra a b c :
  rp_merge (rp_merge a b) c = rp_merge a (rp_merge b c) /\ rp_merge no_format a = a /\ rp_merge a no_format = a
  /\ css_attrs no_format = [].
Proof.
  destruct a as [a1 a2 a3 a4 a5 a6], b as [b1 b2 b3 b4 b5 b6], c as [c1 c2 c3 c4 c5 c6].
  unfold rp_merge, no_format. cbn [rp_bold rp_italics rp_underline rp_strike rp_valign rp_color]. unfold or_else.
  split; [|split; [|split]]; [f_equal| | |reflexivity];
    repeat match goal with |- context [match ?x with _ => _ end] => destruct x end; reflexivity.
Qed.

(** Formats are equal exactly if they have the same CSS attributes, and then they hash equally. *)
Theorem C49_equal_hash a b :
  (rp_eqb a b = true <-> same_css (css_attrs a) (css_attrs b))
  /\ (rp_eqb a b = true -> rp_hash_of a = rp_hash_of b).
Proof.
  unfold rp_eqb. rewrite attrs_eqb_eq, css_ext. split; [reflexivity|]. intros E. unfold rp_hash_of. rewrite E. reflexivity.
Qed.
Print Assumptions C49_merge.
Print Assumptions C49_algebra.
Print Assumptions C49_equal_hash.

Example C49_ex :
  css_attrs (rp_merge (mkRp (Some true) None (Some true) None None (Some (utf8 "FF0000"))) (mkRp (Some false) None None (Some true) None None))
  = [(utf8 "font-weight", utf8 "normal"); (utf8 "text-decoration-line", utf8 "underline line-through"); (utf8 "color", utf8 "#FF0000")].
Proof. reflexivity. Qed.

(** C50.  A run whose properties have a w:u element is underlined, and one with a w:strike
    element is struck through, whatever their values say. *)
Theorem C50_decoration e p :
  from_rpr e = DOk p ->
  (w_children "w:u" e <> [] <->
     css_get "text-decoration-line" (css_attrs p) = Some (utf8 "underline")
     \/ css_get "text-decoration-line" (css_attrs p) = Some (utf8 "underline line-through"))
  /\ (w_children "w:strike" e <> [] <->
     css_get "text-decoration-line" (css_attrs p) = Some (utf8 "line-through")
     \/ css_get "text-decoration-line" (css_attrs p) = Some (utf8 "underline line-through")).
Proof.
  assert (F : forall t, elem_first [t] e = first (w_children t e)).
  { intros t. unfold elem_first. cbn [w_path]. f_equal. induction (w_children t e); cbn; congruence. }
  unfold from_rpr. destruct (u_val e) as [u| |] eqn:U; cbn [dbind]; try discriminate.
  destruct (valign_of _) as [va| |]; cbn [dbind]; try discriminate. intros [= <-]. rewrite css3. unfold piece3. cbn [rp_underline rp_strike].
  unfold u_val in U. rewrite F in U. unfold bprop_val. rewrite F.
  assert (HU : w_children "w:u" e <> [] <-> u <> None).
  { destruct (w_children "w:u" e) as [|x l]; cbn in U; [injection U as <-; split; congruence|].
    destruct (attr_first_req [] "w:val" x); cbn in U; try discriminate. injection U as <-. split; congruence. }
  rewrite HU. clear HU U.
  assert (HS : w_children "w:strike" e <> [] <-> match first (w_children "w:strike" e) with None => None | Some r => Some (match attr_first [] "w:val" r with None => true | Some v => negb (seqb (strip v) (utf8 "0")) end) end <> None).
  { destruct (w_children "w:strike" e); cbn; split; congruence. }
  rewrite HS. destruct (match first (w_children "w:strike" e) with None => None | Some _ => _ end), u; cbn; intuition (try discriminate; try congruence).
Qed.

(** In particular when they are switched off. *)
Theorem C50_switched_off :
  exists e p, from_rpr e = DOk p
    /\ attr_first ["w:u"] "w:val" e = Some (utf8 "none") /\ attr_first ["w:strike"] "w:val" e = Some (utf8 "0")
    /\ rp_underline p = Some false /\ rp_strike p = Some false
    /\ css_attrs p = [(utf8 "text-decoration-line", utf8 "underline line-through")].
Proof.
  exists (W 0 (utf8 "w:rPr") [] None [W 1 (utf8 "w:u") [(utf8 "w:val", utf8 "none")] None [];
                                      W 2 (utf8 "w:strike") [(utf8 "w:val", utf8 "0")] None []]).
  eexists. repeat split; vm_compute; reflexivity.
Qed.
Print Assumptions C50_decoration.
Print Assumptions C50_switched_off.

(** ** C48 *)

Section History.
Context {K : Type}.
Variables (prefix : str) (eq : K -> K -> bool) (css : K -> list (str * str)).
(** Two formats with attributes are the same dict key exactly if the attributes are equal. *)
Hypothesis eq_css : forall a b, css a <> [] -> css b <> [] -> (eq a b = true <-> css a = css b).

(** The answers to a sequence of requests, and the cache in the end. *)
Fixpoint requests (ks : list K) (c : cache K) : list (option str) * cache K :=
  match ks with
  | [] => ([], c)
  | k :: r =>
      let (n, c') := get_clsname prefix eq css k c in
      let (ns, c'') := requests r c' in (n :: ns, c'')
  end.

Definition name (i : N) : str := prefix ++ str_of_N i.
Lemma name_inj i j : name i = name j -> i = j.
Proof. intros H. apply app_inv_head in H. apply str_of_N_inj. exact H. Qed.

(** Entry number i has the name of number i, non-empty attributes, different from the others. *)
Definition inv (c : cache K) : Prop :=
  ca_count c = N.of_nat (List.length (ca_dict c))
  /\ (forall i k n, nth_error (ca_dict c) i = Some (k, n) -> n = name (N.of_nat i) /\ css k <> [])
  /\ (forall i j k n k' n', nth_error (ca_dict c) i = Some (k, n) -> nth_error (ca_dict c) j = Some (k', n') -> css k = css k' -> i = j).

Lemma find_nth {A} (f : A -> bool) l x : find f l = Some x -> exists i, nth_error l i = Some x /\ f x = true.
Proof.
  induction l as [|a l IH]; cbn; [discriminate|]. destruct (f a) eqn:E.
  - intros [= ->]. exists O. split; [reflexivity | exact E].
  - intros H. destruct (IH H) as (i & I & F). exists (S i). split; assumption.
Qed.

(** One request: the answer, and what the cache is afterwards. *)
Lemma request_step k c : inv c ->
  exists n c', get_clsname prefix eq css k c = (n, c') /\ inv c'
    /\ (exists more, ca_dict c' = ca_dict c ++ more)
    /\ (css k = [] -> n = None /\ c' = c)
    /\ (css k <> [] -> exists i k' m, n = Some m /\ nth_error (ca_dict c') i = Some (k', m) /\ css k' = css k)
    /\ (forall i k' m, nth_error (ca_dict c') i = Some (k', m) -> (List.length (ca_dict c) <= i)%nat -> css k' = css k /\ n = Some m).
Proof.
  intros (C1 & C2 & C3). unfold get_clsname. destruct (css k) as [|a l] eqn:Ek.
  - exists None, c. split; [reflexivity|]. split; [repeat split; try assumption; apply (C2 _ _ _ H)|].
    split; [exists []; symmetry; apply app_nil_r|]. split; [auto|]. split; [congruence|].
    intros i k' m H L. apply nth_error_Some_lt in H || (assert (nth_error (ca_dict c) i <> None) as H' by congruence; apply nth_error_Some in H'; lia).
  - destruct (find (fun p => eq (fst p) k) (ca_dict c)) as [[k' m]|] eqn:F.
    + exists (Some m), c. split; [reflexivity|]. split; [repeat split; try assumption; apply (C2 _ _ _ H)|].
      split; [exists []; symmetry; apply app_nil_r|]. split; [discriminate|]. split.
      * intros _. apply find_nth in F as (i & I & E). exists i, k', m. split; [reflexivity|]. split; [exact I|].
        cbn in E. apply eq_css in E; [congruence | apply (C2 _ _ _ I) | rewrite Ek; discriminate].
      * intros i k'' m' H L. assert (nth_error (ca_dict c) i <> None) as H' by congruence. apply nth_error_Some in H'. lia.
    + assert (NF : forall i k' m, nth_error (ca_dict c) i = Some (k', m) -> css k' <> a :: l).
      { intros i k' m I E. pose proof (find_none _ _ F (k', m) (nth_error_In _ _ I)) as X. cbn in X.
        assert (eq k' k = true) by (apply eq_css; [apply (C2 _ _ _ I) | rewrite Ek; discriminate | congruence]). congruence. }
      eexists _, _. split; [reflexivity|].
      assert (NTH : forall i x, nth_error (ca_dict c ++ [(k, prefix ++ str_of_N (ca_count c))]) i = Some x ->
                (nth_error (ca_dict c) i = Some x \/ (i = List.length (ca_dict c) /\ x = (k, name (N.of_nat i))))).
      { intros i x H. destruct (Nat.lt_ge_cases i (List.length (ca_dict c))) as [L|L].
        - left. rewrite nth_error_app1 in H by exact L. exact H.
        - right. rewrite nth_error_app2 in H by exact L. revert H. destruct (i - List.length (ca_dict c))%nat as [|d] eqn:D; intros H; cbn [nth_error] in H.
          + assert (i = List.length (ca_dict c)) as -> by lia. split; [reflexivity|]. cbn [nth_error] in H. unfold name. rewrite <- C1. injection H as <-. reflexivity.
          + cbn in H. destruct d; discriminate. }
      split; [|split; [|split; [|split]]].
      * split; [|split]; cbn [ca_dict ca_count].
        -- rewrite app_length. cbn. lia.
        -- intros i k' n' H. apply NTH in H as [H|(-> & [= -> ->])]; [exact (C2 _ _ _ H)|]. split; [reflexivity | rewrite Ek; discriminate].
        -- intros i j k1 n1 k2 n2 H1 H2 E. apply NTH in H1 as [H1|(-> & [= -> ->])], H2 as [H2|(-> & [= -> ->])].
           ++ exact (C3 _ _ _ _ _ _ H1 H2 E).
           ++ exfalso. apply (NF _ _ _ H1). congruence.
           ++ exfalso. apply (NF _ _ _ H2). congruence.
           ++ reflexivity.
      * eexists. reflexivity.
      * discriminate.
      * intros _. exists (List.length (ca_dict c)), k. eexists. split; [reflexivity|]. cbn [ca_dict]. split; [|exact Ek].
        rewrite nth_error_app2, Nat.sub_diag by lia. reflexivity.
      * intros i k' m H L. cbn [ca_dict] in H. apply NTH in H as [H|(-> & [= -> ->])].
        -- assert (nth_error (ca_dict c) i <> None) as H' by congruence. apply nth_error_Some in H'. lia.
        -- split; [exact Ek|]. unfold name. rewrite C1. reflexivity.
Qed.

Lemma requests_inv ks : forall c ns c', inv c -> requests ks c = (ns, c') ->
  inv c' /\ (exists more, ca_dict c' = ca_dict c ++ more)
  /\ List.length ns = List.length ks
  /\ (forall i k n, nth_error ks i = Some k -> nth_error ns i = Some n ->
        (css k = [] -> n = None)
        /\ (css k <> [] -> exists j k' m, n = Some m /\ nth_error (ca_dict c') j = Some (k', m) /\ css k' = css k))
  /\ (forall j k' m, nth_error (ca_dict c') j = Some (k', m) -> (List.length (ca_dict c) <= j)%nat ->
        exists i k, nth_error ks i = Some k /\ nth_error ns i = Some (Some m) /\ css k = css k').
Proof.
  induction ks as [|k ks IH]; intros c ns c' I H.
  - cbn in H. injection H as <- <-. split; [exact I|]. split; [exists []; symmetry; apply app_nil_r|]. split; [reflexivity|].
    split; [intros [|i] ? ?; discriminate|]. intros j k' m X L. assert (nth_error (ca_dict c) j <> None) as X' by congruence. apply nth_error_Some in X'. lia.
  - cbn in H. destruct (request_step k c I) as (n & c1 & E & I1 & (more & M) & N0 & N1 & NW). rewrite E in H.
    destruct (requests ks c1) as [ns' c2] eqn:R. injection H as <- <-.
    destruct (IH c1 ns' c2 I1 R) as (I2 & (more' & M') & L & A & B).
    split; [exact I2|]. split; [exists (more ++ more'); rewrite M', M, app_assoc; reflexivity|]. split; [cbn; congruence|]. split.
    + intros [|i] k0 n0 H1 H2; cbn in H1, H2; [|exact (A i k0 n0 H1 H2)].
      injection H1 as <-. injection H2 as <-. split; [intros Z; apply N0; exact Z|].
      intros Z. destruct (N1 Z) as (j & k' & m & -> & J & Ec). exists j, k', m. split; [reflexivity|]. split; [|exact Ec].
      rewrite M', nth_error_app1; [exact J|]. apply nth_error_Some. congruence.
    + intros j k' m H1 L1. destruct (Nat.lt_ge_cases j (List.length (ca_dict c1))) as [Lj|Lj].
      * rewrite M', nth_error_app1 in H1 by exact Lj. destruct (NW j k' m H1 L1) as [Ec ->].
        exists O, k. split; [reflexivity|]. split; [reflexivity | congruence].
      * destruct (B j k' m H1 Lj) as (i & k0 & X & Y & Z). exists (S i), k0. auto.
Qed.

Lemma inv_empty : inv empty_cache.
Proof. split; [reflexivity|]. split; intros [|i]; discriminate. Qed.

Lemma history ks ns c : requests ks empty_cache = (ns, c) ->
  List.length ns = List.length ks
  /\ (forall i k n, nth_error ks i = Some k -> nth_error ns i = Some n -> (n = None <-> css k = []))
  /\ (forall i j k k' m m', nth_error ks i = Some k -> nth_error ks j = Some k' ->
        nth_error ns i = Some (Some m) -> nth_error ns j = Some (Some m') -> (m = m' <-> css k = css k'))
  /\ NoDup (map fst (emit_rules css c))
  /\ (forall m a, In (m, a) (emit_rules css c) <->
        exists i k, nth_error ks i = Some k /\ nth_error ns i = Some (Some m) /\ a = css k).
Proof.
  intros R. destruct (requests_inv ks empty_cache ns c inv_empty R) as ((I1 & I2 & I3) & _ & L & A & B).
  assert (N1 : forall i k n, nth_error ks i = Some k -> nth_error ns i = Some n -> (n = None <-> css k = [])).
  { intros i k n H1 H2. destruct (A i k n H1 H2) as [A1 A2]. split; [|exact A1]. intros ->.
    destruct (css k) eqn:E; [reflexivity|]. destruct A2 as (j & k' & m & X & _); [congruence | discriminate]. }
  assert (D : forall i k m, nth_error ks i = Some k -> nth_error ns i = Some (Some m) ->
     exists j k', nth_error (ca_dict c) j = Some (k', m) /\ css k' = css k).
  { intros i k m H1 H2. destruct (A i k _ H1 H2) as [_ A2]. destruct A2 as (j & k' & m' & [= <-] & J & E).
    - intros Z. apply (N1 i k _ H1 H2) in Z. discriminate.
    - exists j, k'. auto. }
  split; [exact L|]. split; [exact N1|]. split; [|split].
  - intros i j k k' m m' H1 H2 H3 H4. destruct (D i k m H1 H3) as (x & kx & X & Ex), (D j k' m' H2 H4) as (y & ky & Y & Ey). split.
    + intros <-. destruct (I2 _ _ _ X) as [Nx _], (I2 _ _ _ Y) as [Ny _]. rewrite Nx in Ny. apply name_inj in Ny.
      assert (x = y) by lia. subst y. congruence.
    + intros E. assert (x = y) by (eapply I3; [exact X | exact Y | congruence]). subst y. congruence.
  - unfold emit_rules. rewrite map_map. apply NoDup_nth_error. intros i j Hi H. rewrite map_length in Hi.
    cbn [fst] in H. rewrite !nth_error_map in H.
    destruct (nth_error (ca_dict c) i) as [[k n]|] eqn:X; [|apply nth_error_None in X; lia].
    destruct (nth_error (ca_dict c) j) as [[k' n']|] eqn:Y; [|discriminate]. cbn in H. injection H as <-.
    destruct (I2 _ _ _ X) as [Nx _], (I2 _ _ _ Y) as [Ny _]. rewrite Nx in Ny. apply name_inj in Ny. lia.
  - intros m a. unfold emit_rules. rewrite in_map_iff. split.
    + intros ([k n] & [= <- <-] & X). apply In_nth_error in X as (j & X). destruct (B j k n X) as (i & k0 & H1 & H2 & H3); [cbn; lia|].
      exists i, k0. auto.
    + intros (i & k & H1 & H2 & ->). destruct (D i k m H1 H2) as (j & k' & J & E). exists (k', m). cbn. split; [congruence|]. apply nth_error_In in J. exact J.
Qed.

End History.

Lemma rp_eq_css a b : css_attrs a <> [] -> css_attrs b <> [] -> (rp_eqb a b = true <-> css_attrs a = css_attrs b).
Proof. intros _ _. apply attrs_eqb_eq. Qed.
Lemma fill_eq_css a b : fill_css a <> [] -> fill_css b <> [] -> (seqb a b = true <-> fill_css a = fill_css b).
Proof.
  intros A B. rewrite seqb_eq. split; [congruence|]. unfold fill_css in *.
  destruct (smem a _); [congruence|]. destruct (smem b _); [congruence|]. intros E. injection E as E. exact E.
Qed.

(** C48.  For any sequence of requests for text formats: a format without CSS attributes gets
    no class; two others get the same class exactly if they have the same attributes; the rules
    written are exactly one per class handed out, with the attributes of the formats it was
    handed out for. *)
Theorem C48_text ks ns c :
  requests (utf8 "txtfmt") rp_eqb css_attrs ks empty_cache = (ns, c) ->
  List.length ns = List.length ks
  /\ (forall i k n, nth_error ks i = Some k -> nth_error ns i = Some n -> (n = None <-> css_attrs k = []))
  /\ (forall i j k k' m m', nth_error ks i = Some k -> nth_error ks j = Some k' ->
        nth_error ns i = Some (Some m) -> nth_error ns j = Some (Some m') ->
        (m = m' <-> same_css (css_attrs k) (css_attrs k')))
  /\ NoDup (map fst (emit_rules css_attrs c))
  /\ (forall m a, In (m, a) (emit_rules css_attrs c) <->
        exists i k, nth_error ks i = Some k /\ nth_error ns i = Some (Some m) /\ a = css_attrs k).
Proof.
  intros R. destruct (history _ _ _ rp_eq_css _ _ _ R) as (A & B & C & D & E).
  split; [exact A|]. split; [exact B|]. split; [|split; [exact D | exact E]].
  intros i j k k' m m' H1 H2 H3 H4. rewrite css_ext. exact (C i j k k' m m' H1 H2 H3 H4).
Qed.

(** The same for the fill colours of cells. *)
Theorem C48_cells ks ns c :
  requests (utf8 "tcell") seqb fill_css ks empty_cache = (ns, c) ->
  List.length ns = List.length ks
  /\ (forall i k n, nth_error ks i = Some k -> nth_error ns i = Some n -> (n = None <-> fill_css k = []))
  /\ (forall i j k k' m m', nth_error ks i = Some k -> nth_error ks j = Some k' ->
        nth_error ns i = Some (Some m) -> nth_error ns j = Some (Some m') -> (m = m' <-> fill_css k = fill_css k'))
  /\ NoDup (map fst (emit_rules fill_css c))
  /\ (forall m a, In (m, a) (emit_rules fill_css c) <->
        exists i k, nth_error ks i = Some k /\ nth_error ns i = Some (Some m) /\ a = fill_css k).
Proof. apply history. exact fill_eq_css. Qed.

(** No class is both a text class and a cell class. *)
Theorem C48_apart ks ns c ks' ns' c' m :
  requests (utf8 "txtfmt") rp_eqb css_attrs ks empty_cache = (ns, c) ->
  requests (utf8 "tcell") seqb fill_css ks' empty_cache = (ns', c') ->
  In (Some m) ns -> ~ In (Some m) ns'.
Proof.
  intros R R' I I'.
  destruct (requests_inv _ _ _ rp_eq_css _ _ _ _ (inv_empty _ _) R) as ((_ & I2 & _) & _ & L & A & _).
  destruct (requests_inv _ _ _ fill_eq_css _ _ _ _ (inv_empty _ _) R') as ((_ & J2 & _) & _ & L' & A' & _).
  apply In_nth_error in I as (i & I), I' as (j & J).
  assert (exists k, nth_error ks i = Some k) as (k & K).
  { destruct (nth_error ks i) eqn:E; [eauto|]. apply nth_error_None in E. assert (nth_error ns i <> None) as X by congruence. apply nth_error_Some in X. lia. }
  assert (exists k', nth_error ks' j = Some k') as (k' & K').
  { destruct (nth_error ks' j) eqn:E; [eauto|]. apply nth_error_None in E. assert (nth_error ns' j <> None) as X by congruence. apply nth_error_Some in X. lia. }
  destruct (A i k _ K I) as [A1 A2]. destruct (A' j k' _ K' J) as [A1' A2'].
  destruct A2 as (x & kx & mx & [= <-] & X & _); [intros Z; apply A1 in Z; discriminate|].
  destruct A2' as (y & ky & my & [= <-] & Y & _); [intros Z; apply A1' in Z; discriminate|].
  destruct (I2 _ _ _ X) as [Nx _], (J2 _ _ _ Y) as [Ny _]. rewrite Nx in Ny. discriminate.
Qed.
Print Assumptions C48_text.
Print Assumptions C48_cells.
Print Assumptions C48_apart.

Definition bold_f : rprops := mkRp (Some true) None None None None None.
Definition ital_f : rprops := mkRp None (Some true) None None None None.
Example C48_ex : fst (requests (utf8 "txtfmt") rp_eqb css_attrs [bold_f; no_format; ital_f; bold_f] empty_cache)
  = [Some (utf8 "txtfmt0"); None; Some (utf8 "txtfmt1"); Some (utf8 "txtfmt0")].
Proof. reflexivity. Qed.

(** ** C54 *)

Definition nonspace (c : N) : bool := negb (isspace c).
Lemma cls_nonspace c : cls_ok (NCls [CS]) c = nonspace c.
Proof. unfold nonspace. cbn. rewrite orb_false_r. reflexivity. Qed.

Definition evision : str := utf8 "evision".
Definition revision_after (v : str) : option str :=
  match v with
  | [] => None
  | R :: r =>
      if (R =? 82) || (R =? 114) then
        if startswith evision r then
          let s := skipn (List.length evision) r in
          match take_while isspace s, take_while nonspace (drop_while isspace s) with
          | _ :: _, (_ :: _) as w => Some w
          | _, _ => None
          end
        else None
      else None
  end.

Lemma rest_spec b v :
  mt (rseq [RChr (Cls [CI 82; CI 114]); rlit (utf8 "evision"); RPlus (Cls [CS]); RGrp G_rev (RPlus (NCls [CS])); RStar AnyNL]) b v []
    (fun _ _ g => Some g)
  = match revision_after v with Some w => Some [(G_rev, w)] | None => None end.
Proof.
  unfold revision_after. destruct v as [|R r]; [reflexivity|].
  change (rseq _) with (RSeq (RChr (Cls [CI 82; CI 114])) (RSeq (rlit evision) (RSeq (RPlus (Cls [CS])) (RSeq (RGrp G_rev (RPlus (NCls [CS]))) (RStar AnyNL))))).
  set (tl := RSeq (RPlus (Cls [CS])) (RSeq (RGrp G_rev (RPlus (NCls [CS]))) (RStar AnyNL))).
  match goal with |- mt _ _ _ _ ?fin = ?rhs => change ((if cls_ok (Cls [CI 82; CI 114]) R then mt (rlit evision) false r [] (fun b' t' g' => mt tl b' t' g' fin) else None) = rhs) end.
  replace (cls_ok (Cls [CI 82; CI 114]) R) with ((R =? 82) || (R =? 114)) by (cbn; rewrite orb_false_r; reflexivity).
  destruct ((R =? 82) || (R =? 114)); [|reflexivity].
  destruct (startswith evision r) eqn:S.
  2:{ rewrite rlit_none by exact S. reflexivity. }
  apply startswith_app in S as (t & ->). rewrite skipn_app_len, rlit_app. cbv zeta.
  match goal with |- mt _ _ _ _ ?fin = ?rhs =>
    set (k := fun (b' : bool) (t' : str) (g' : caps) => mt (RSeq (RGrp G_rev (RPlus (NCls [CS]))) (RStar AnyNL)) b' t' g' fin);
    change (mt (RPlus (Cls [CS])) false t [] k = rhs) end.
  rewrite (plus_det _ _ _ _ _ _ cls_space).
  2:{ intros b' y v Hy. unfold k. cbn [mt]. rewrite cls_nonspace. unfold nonspace. rewrite Hy. reflexivity. }
  destruct (take_while isspace t) as [|s0 sp]; [reflexivity|]. unfold k.
  set (u := drop_while isspace t). destruct (take_while nonspace u) as [|w0 w] eqn:W.
  - destruct u as [|y u]; [reflexivity|]. cbn [mt]. rewrite cls_nonspace. cbn [take_while] in W.
    destruct (nonspace y); [discriminate | reflexivity].
  - change (mt (RPlus (NCls [CS])) false u [] (fun b' t' g' => mt (RStar AnyNL) b' t' ((G_rev, between u t') :: g') (fun _ _ g => Some g)) = Some [(G_rev, w0 :: w)]).
    apply (m_plus _ _ _ _ _ _ _ cls_nonspace); [congruence|].
    intros b'. rewrite between_drop, W. cbn [mt]. apply star_loop_greedy. reflexivity.
Qed.

Lemma take_all p a t : forallb p a = true -> match t with [] => True | c :: _ => p c = false end ->
  take_while p (a ++ t) = a /\ drop_while p (a ++ t) = t.
Proof.
  intros H T. induction a as [|c a IH]; cbn in *.
  - destruct t as [|c t]; cbn; [auto|]. rewrite T. auto.
  - apply andb_prop in H as [H1 H2]. rewrite H1. destruct (IH H2) as [-> ->]. auto.
Qed.
Lemma Forall_forallb (p : N -> bool) l : Forall (fun c => p c = true) l <-> forallb p l = true.
Proof. rewrite forallb_forall, Forall_forall. reflexivity. Qed.

Lemma revision_at_iff h a w : revision_at h a w <-> exists v, h = a ++ v /\ ~ In 10 a /\ revision_after v = Some w.
Proof.
  split.
  - intros (R & sp & rest & -> & HR & N1 & F1 & N2 & F2 & ST & NL).
    exists (R :: evision ++ sp ++ w ++ rest). split; [reflexivity|]. split; [exact NL|].
    unfold revision_after. replace ((R =? 82) || (R =? 114)) with true by (destruct HR as [->| ->]; reflexivity).
    replace (startswith evision (evision ++ sp ++ w ++ rest)) with true by reflexivity.
    rewrite skipn_app_len. cbv zeta.
    assert (FW : forallb nonspace w = true) by (apply Forall_forallb; eapply Forall_impl; [|exact F2]; intros c E; unfold nonspace; rewrite E; reflexivity).
    destruct (take_all isspace sp (w ++ rest)) as [-> ->]; [apply Forall_forallb; exact F1 | |].
    + destruct w as [|c w]; [congruence|]. cbn [app]. apply Forall_inv in F2. exact F2.
    + destruct (take_all nonspace w rest FW) as [-> _].
      * destruct rest; [exact I|]. unfold nonspace. rewrite ST. reflexivity.
      * destruct sp; [congruence|]. destruct w; [congruence | reflexivity].
  - intros (v & -> & NL & E). unfold revision_after in E. destruct v as [|R r]; [discriminate|].
    destruct ((R =? 82) || (R =? 114)) eqn:ER; [|discriminate].
    destruct (startswith evision r) eqn:S; [|discriminate]. apply startswith_app in S as (t & ->). rewrite skipn_app_len in E. cbv zeta in E.
    destruct (take_while isspace t) as [|s0 sp] eqn:T1; [discriminate|].
    destruct (take_while nonspace (drop_while isspace t)) as [|w0 w1] eqn:T2; [discriminate|]. injection E as <-.
    exists R, (s0 :: sp), (drop_while nonspace (drop_while isspace t)).
    split; [rewrite <- T1, <- T2, (take_drop nonspace), (take_drop isspace); reflexivity|].
    split; [destruct (N.eqb_spec R 82); [auto|]; destruct (N.eqb_spec R 114); [auto | discriminate]|].
    split; [discriminate|]. split; [rewrite <- T1; apply Forall_forallb, take_while_all|].
    split; [discriminate|]. split.
    { rewrite <- T2. eapply Forall_impl; [|apply Forall_forallb, (take_while_all nonspace)]. intros c Hc. unfold nonspace in Hc.
      destruct (isspace c); [discriminate | reflexivity]. }
    split; [|exact NL].
    destruct (drop_while nonspace (drop_while isspace t)) as [|c r'] eqn:D; [exact I|]. apply drop_while_head in D. unfold nonspace in D.
    destruct (isspace c); [reflexivity | discriminate].
Qed.

(** The revision of the document is the word after the last "Revision"/"revision" that begins
    on the first line of the header and is followed by white space and a word; there is none
    exactly if the first line has no such beginning. *)
Theorem C54_revision h :
  (forall w, header_revision h = Some w <->
     exists a, revision_at h a w /\ forall a' w', revision_at h a' w' -> (List.length a' <= List.length a)%nat)
  /\ (header_revision h = None <-> forall a w, ~ revision_at h a w).
Proof.
  assert (NL : forall a, forallb (cls_ok AnyNL) a = true <-> ~ In 10 a).
  { intros a. rewrite forallb_forall. split.
    - intros H I. apply H in I. discriminate.
    - intros H x Hx. cbn. destruct (N.eqb_spec x 10); [subst; contradiction | reflexivity]. }
  assert (E : header_revision h = match star_loop (cls_ok AnyNL) true h (fun _ v => match revision_after v with Some w => Some [(G_rev, w)] | None => None end) with
     Some g => group G_rev g | None => None end).
  { unfold header_revision, re_match, REVISION_REGEX.
    match goal with |- match mt (rseq (RStar AnyNL :: ?l)) true h [] ?k with _ => _ end = _ =>
      change (mt (rseq (RStar AnyNL :: l)) true h [] k)
        with (star_loop (cls_ok AnyNL) true h (fun b' t => mt (rseq l) b' t [] k)) end.
    assert (X : forall k1 k2 : bool -> str -> option caps, (forall b v, k1 b v = k2 b v) -> forall b s, star_loop (cls_ok AnyNL) b s k1 = star_loop (cls_ok AnyNL) b s k2).
    { intros k1 k2 X b s. revert b. induction s as [|c s IH]; intros b; cbn [star_loop]; [apply X|]. rewrite IH, X. reflexivity. }
    rewrite (X _ _ (fun b v => rest_spec b v)). reflexivity. }
  set (k := fun (_ : bool) (v : str) => match revision_after v with Some w => Some [(G_rev, w)] | None => None end) in E.
  assert (S : forall g, star_loop (cls_ok AnyNL) true h k = Some g ->
     exists a w, g = [(G_rev, w)] /\ revision_at h a w /\ forall a' w', revision_at h a' w' -> (List.length a' <= List.length a)%nat).
  { intros g Hg. apply star_loop_inv in Hg as (u & v & -> & HU & HK & MX). unfold k in HK.
    destruct (revision_after v) as [w|] eqn:RA; [|discriminate]. injection HK as <-.
    exists u, w. split; [reflexivity|]. split; [apply revision_at_iff; exists v; split; [reflexivity|]; split; [apply NL; exact HU | exact RA]|].
    intros a' w' H'. apply revision_at_iff in H' as (v' & E' & NI & RA'). destruct (Nat.le_gt_cases (List.length a') (List.length u)); [assumption|].
    exfalso. specialize (MX a' v' E' (proj2 (NL a') NI) H). unfold k in MX. rewrite RA' in MX. discriminate. }
  assert (N : star_loop (cls_ok AnyNL) true h k = None -> forall a w, ~ revision_at h a w).
  { intros HN a w H. apply revision_at_iff in H as (v & -> & NI & RA).
    destruct (star_loop_some (cls_ok AnyNL) true (a ++ v) k a v [(G_rev, w)] eq_refl (proj2 (NL a) NI)) as (y & Y); [|congruence].
    intros b'. unfold k. rewrite RA. reflexivity. }
  assert (FU : forall a w w', revision_at h a w -> revision_at h a w' -> w = w').
  { intros a w w' H1 H2. apply revision_at_iff in H1 as (v & E1 & _ & R1), H2 as (v' & E2 & _ & R2).
    rewrite E1 in E2. apply app_inv_head in E2. congruence. }
  rewrite E. destruct (star_loop (cls_ok AnyNL) true h k) as [g|].
  - destruct (S g eq_refl) as (a & w & -> & RA & MX). change (group G_rev [(G_rev, w)]) with (Some w). split.
    + intros w'. split; [intros [= <-]; eauto|]. intros (a' & RA' & MX'). f_equal.
      pose proof (MX _ _ RA'). pose proof (MX' _ _ RA). assert (a = a') as <-.
      { destruct RA as (R & sp & r & E1 & _), RA' as (R' & sp' & r' & E2 & _). rewrite E1 in E2.
        apply (f_equal (firstn (List.length a))) in E2. rewrite firstn_app, Nat.sub_diag, firstn_all in E2. cbn in E2. rewrite app_nil_r in E2.
        replace (List.length a) with (List.length a') in E2 by lia.
        change (firstn (List.length a') (a' ++ R' :: evision ++ sp' ++ w' ++ r')) with (firstn (List.length a') (a' ++ R' :: evision ++ sp' ++ w' ++ r')) in E2.
        rewrite firstn_app, Nat.sub_diag, firstn_all in E2. cbn in E2. rewrite app_nil_r in E2. exact E2. }
      exact (FU a w w' RA RA').
    + split; [discriminate|]. intros H. exfalso. exact (H a w RA).
  - specialize (N eq_refl). split.
    + intros w. split; [discriminate|]. intros (a & RA & _). exfalso. exact (N a w RA).
    + split; [intros _; exact N | reflexivity].
Qed.

(** The title is the header before the first comma, without the white space around it. *)
Theorem C54_title h :
  exists before, (h = before \/ exists after, h = before ++ 44 :: after) /\ ~ In 44 before /\ trimmed before (header_title h).
Proof.
  exists (fst (split1 44 h)). split; [|split].
  - pose proof (split1_eq 44 h) as E. destruct (split1 44 h) as [b [a|]]; cbn; [right; exists a; exact E | left; exact E].
  - apply split1_fst_not_In.
  - unfold header_title, strip. set (b := fst (split1 44 h)). split.
    + destruct (strip_sub isspace b) as (x & y & E & X & Y). exists x, y. rewrite !Forall_forallb. auto.
    + destruct (strip_ends isspace b) as [S1 S2]. split; intros c r E.
      * rewrite E in S1. exact S1.
      * rewrite E, rev_app_distr in S2. exact S2.
Qed.
Print Assumptions C54_revision.
Print Assumptions C54_title.

Example C54_ex :
  header_revision (utf8 "NVM Express Revision 1.0 Specification, revision 2.0c") = Some (utf8 "2.0c")
  /\ header_title (utf8 " NVM Express , Revision 1.0") = utf8 "NVM Express"
  /\ header_revision (utf8 "NVMe, Revision") = None.
Proof. repeat split; reflexivity. Qed.

(** ** C51 *)

Definition id_is (id : str) (s : welem) : bool := match w_attr "w:styleId" s with Some i => seqb i id | None => false end.

Lemma id_is_true id s : id_is id s = true <-> w_attr "w:styleId" s = Some id.
Proof.
  unfold id_is. destruct (w_attr "w:styleId" s) as [i|]; [|split; discriminate]. rewrite seqb_eq. split; congruence.
Qed.

Lemma find_style ty doc id s : find (id_is id) (styles_of ty doc) = Some s <-> is_style ty doc id s.
Proof.
  unfold is_style. change (filter _ (filter _ (w_kids doc))) with (styles_of ty doc). generalize (styles_of ty doc) as l. intros l. split.
  - induction l as [|x l IH]; cbn [find]; [discriminate|]. destruct (id_is id x) eqn:E.
    + intros [= ->]. exists [], l. split; [reflexivity|]. split; [apply id_is_true; exact E | constructor].
    + intros H. destruct (IH H) as (A & B & -> & Hs & F). exists (x :: A), B. split; [reflexivity|]. split; [exact Hs|].
      constructor; [|exact F]. intros X. apply id_is_true in X. congruence.
  - intros (A & B & -> & Hs & F). induction F as [|x A Hx F IH]; cbn [app find].
    + apply id_is_true in Hs. rewrite Hs. reflexivity.
    + destruct (id_is id x) eqn:E; [apply id_is_true in E; contradiction | exact IH].
Qed.

Lemma chain_det ty doc id ss : chain ty doc id ss -> forall ss', chain ty doc id ss' -> ss = ss'.
Proof.
  induction 1 as [id s HS HB|id s b ss HS HB _ IH]; intros ss' H'; inversion H' as [id' s' HS' HB'|id' s' b' ss1 HS' HB' HC']; subst;
    apply find_style in HS, HS'; rewrite HS in HS'; injection HS' as <-.
  - reflexivity.
  - exfalso. exact (HB _ HB').
  - exfalso. exact (HB' _ HB).
  - rewrite <- (first_value_det _ _ _ _ _ HB HB') in HC'. f_equal. apply IH. exact HC'.
Qed.

Lemma chain_suffix ty doc id A s B : chain ty doc id (A ++ s :: B) -> exists id', is_style ty doc id' s /\ chain ty doc id' (s :: B).
Proof.
  revert id. induction A as [|a A IH]; intros id H; cbn in H.
  - exists id. split; [|exact H]. inversion H; assumption.
  - remember (a :: A ++ s :: B) as l eqn:E. destruct H as [id' s' HS HB|id' s' b ss HS HB HC].
    + injection E as _ E. destruct A; discriminate.
    + injection E as -> ->. exact (IH _ HC).
Qed.

Lemma chain_nodup ty doc id ss : chain ty doc id ss -> NoDup ss.
Proof.
  intros H. assert (X : forall A s B C, ss <> A ++ s :: B ++ s :: C).
  { intros A s B C ->. destruct (chain_suffix _ _ _ _ _ _ H) as (i1 & S1 & C1).
    change (A ++ s :: B ++ s :: C) with (A ++ (s :: B) ++ s :: C) in H. rewrite app_assoc in H.
    destruct (chain_suffix _ _ _ _ _ _ H) as (i2 & S2 & C2).
    assert (i1 = i2) as <-. { destruct S1 as (? & ? & _ & X1 & _), S2 as (? & ? & _ & X2 & _). congruence. }
    pose proof (chain_det _ _ _ _ C1 _ C2) as E. apply (f_equal (@List.length welem)) in E. cbn in E. rewrite app_length in E. cbn in E. lia. }
  clear H. induction ss as [|s ss IH]; [constructor|]. constructor.
  - intros I. apply in_split in I as (B & C & ->). exact (X [] s B C eq_refl).
  - apply IH. intros A t B C E. apply (X (s :: A) t B C). rewrite E. reflexivity.
Qed.

Lemma chain_in ty doc id ss : chain ty doc id ss -> incl ss (styles_of ty doc).
Proof.
  assert (I : forall id s, is_style ty doc id s -> In s (styles_of ty doc)).
  { intros i s H. apply find_style in H. apply find_some in H. tauto. }
  induction 1 as [id s HS _|id s b ss HS _ _ IH]; intros x [<-|Hx].
  - eapply I; exact HS.
  - destruct Hx.
  - eapply I; exact HS.
  - exact (IH x Hx).
Qed.

Lemma chain_length ty doc id ss : chain ty doc id ss -> (List.length ss <= List.length (styles_of ty doc))%nat.
Proof. intros H. apply NoDup_incl_length; [eapply chain_nodup; exact H | eapply chain_in; exact H]. Qed.

Lemma style_chain_some ty doc : forall f id r, style_chain f ty doc id = DOk r -> exists ss, chain ty doc id ss.
Proof.
  induction f as [|f IH]; intros id r H; [discriminate|]. cbn [style_chain] in H.
  fold (id_is id) in H. change (find _ (styles_of ty doc)) with (find (id_is id) (styles_of ty doc)) in H.
  destruct (find (id_is id) (styles_of ty doc)) as [s|] eqn:F; [|discriminate]. apply find_style in F.
  destruct (from_rpr_elem _) as [rpr| |]; cbn [dbind] in H; try discriminate.
  destruct (attr_first ["w:basedOn"] "w:val" s) as [b|] eqn:B.
  - destruct (style_chain f ty doc b) as [q| |] eqn:Q; cbn [dbind] in H; try discriminate. destruct (IH b q Q) as (ss & C).
    exists (s :: ss). apply (ch_more _ _ _ _ _ _ F (proj1 (first_value_iff _ _ _ _) B) C).
  - exists [s]. apply ch_last; [exact F | apply no_value_iff; exact B].
Qed.

Lemma style_chain_nofuel ty doc : forall f id, style_chain f ty doc id <> DFuel.
Proof.
  assert (P : forall e, from_rpr e <> DFuel).
  { intros e. unfold from_rpr, u_val, valign_of, attr_first_req.
    repeat (cbn [dbind]; match goal with |- context [match ?x with _ => _ end] => destruct x end; try discriminate). }
  induction f as [|f IH]; intros id; [discriminate|]. cbn [style_chain].
  match goal with |- context [find ?g ?l] => destruct (find g l) as [s|] end; [|discriminate].
  unfold from_rpr_elem. destruct (elem_first ["w:rPr"] s) as [e|]; cbn [dbind].
  - specialize (P e). destruct (from_rpr e); cbn [dbind]; try discriminate; [|congruence].
    destruct (attr_first ["w:basedOn"] "w:val" s) as [b|]; [|discriminate]. specialize (IH b). destruct (style_chain f ty doc b); cbn [dbind]; try discriminate. congruence.
  - destruct (attr_first ["w:basedOn"] "w:val" s) as [b|]; [|discriminate]. specialize (IH b). destruct (style_chain f ty doc b); cbn [dbind]; try discriminate. congruence.
Qed.

Lemma style_chain_value ty doc id ss : chain ty doc id ss ->
  forall f os, (List.length ss <= f)%nat -> Forall2 (fun s o => from_rpr_elem (elem_first ["w:rPr"] s) = DOk o) ss os ->
  exists r, style_chain f ty doc id = DOk r
    /\ (r = None <-> Forall (fun x => x = None) os)
    /\ prop_of rp_bold r = nearest rp_bold os /\ prop_of rp_italics r = nearest rp_italics os
    /\ prop_of rp_underline r = nearest rp_underline os /\ prop_of rp_strike r = nearest rp_strike os
    /\ prop_of rp_valign r = nearest rp_valign os /\ prop_of rp_color r = nearest rp_color os.
Proof.
  induction 1 as [id s HS HB|id s b ss HS HB HC IH]; intros f os L F; (destruct f as [|f]; [cbn in L; lia|]);
    inversion F as [|s0 o ss0 os0 HO F0]; subst; apply find_style in HS; cbn [style_chain];
    change (find _ (styles_of ty doc)) with (find (id_is id) (styles_of ty doc)); rewrite HS, HO; cbn [dbind]; (apply (proj2 (no_value_iff _ _ _)) in HB || apply (proj2 (first_value_iff _ _ _ _)) in HB); rewrite HB.
  - inversion F0; subst. exists o. split; [reflexivity|]. split; [split; [intros ->; repeat constructor | inversion 1; assumption]|].
    cbn [nearest]. destruct o as [p|]; cbn [prop_of]; [|auto 10].
    destruct (rp_bold p), (rp_italics p), (rp_underline p), (rp_strike p), (rp_valign p), (rp_color p); auto 10.
  - destruct (IH f os0) as (r & -> & R0 & R1 & R2 & R3 & R4 & R5 & R6); [cbn in L; lia | exact F0|]. cbn [dbind].
    eexists. split; [reflexivity|]. split.
    { clear - R0. destruct r as [q|], o as [p|]; split; try discriminate; intros X.
      - inversion X; discriminate.
      - inversion X as [|? ? _ X']; subst. apply R0 in X'. discriminate.
      - inversion X; discriminate.
      - constructor; [reflexivity | apply R0; reflexivity].
      - reflexivity. }
    cbn [nearest].
    rewrite <- R1, <- R2, <- R3, <- R4, <- R5, <- R6. clear.
    destruct r as [q|], o as [p|]; cbn [prop_of rp_merge_opt];
      unfold rp_merge; cbn [rp_bold rp_italics rp_underline rp_strike rp_valign rp_color]; unfold or_else; repeat split; try reflexivity;
      match goal with |- context [match ?x with _ => _ end] => destruct x end; reflexivity.
Qed.

(** Where the names of styles come from: the last style that has the name as its id or among
    its aliases. *)
Lemma d_get_set {V} k k' (v : V) d : d_get k (d_set k' v d) = if seqb k' k then Some v else d_get k d.
Proof.
  unfold d_get. induction d as [|[a b] d IH]; cbn [d_set find fst snd].
  - destruct (seqb k' k); reflexivity.
  - destruct (seqb a k') eqn:E; cbn [find fst snd].
    + apply seqb_eq in E as ->. destruct (seqb k' k); reflexivity.
    + destruct (seqb a k) eqn:E2; [|exact IH]. apply seqb_eq in E2 as ->. rewrite seqb_sym, E. reflexivity.
Qed.

(** [v] is the value of the last pair with key [k]. *)
Definition last_binding {V} (k : str) (v : V) (l : list (str * V)) : Prop :=
  exists A B, l = A ++ (k, v) :: B /\ Forall (fun p => fst p <> k) B.
Lemma last_cons_nil {V} k (v : V) : ~ last_binding k v [].
Proof. intros (A & B & E & _). destruct A; discriminate. Qed.

Lemma d_get_fold {V} (l : list (str * V)) : forall d k v,
  d_get k (fold_left (fun d p => d_set (fst p) (snd p) d) l d) = Some v <->
  last_binding k v l \/ (Forall (fun p => fst p <> k) l /\ d_get k d = Some v).
Proof.
  induction l as [|[k' v'] l IH]; intros d k v; cbn [fold_left fst snd].
  - split; [intros H; right; split; [constructor | exact H]|]. intros [H|[_ H]]; [exfalso; exact (last_cons_nil _ _ H) | exact H].
  - rewrite IH, d_get_set. split.
    + intros [(A & B & -> & F)|[F H]].
      * left. exists ((k', v') :: A), B. split; [reflexivity | exact F].
      * destruct (seqb k' k) eqn:E.
        -- apply seqb_eq in E as ->. injection H as ->. left. exists [], l. split; [reflexivity | exact F].
        -- right. split; [|exact H]. constructor; [|exact F]. cbn. intros ->. rewrite seqb_refl in E. discriminate.
    + intros [(A & B & E & F)|[F H]].
      * destruct A as [|a A]; cbn in E.
        -- injection E as -> -> ->. right. split; [exact F|]. rewrite seqb_refl. reflexivity.
        -- injection E as _ ->. left. exists A, B. auto.
      * inversion F as [|? ? F1 F2]; subst. right. split; [exact F2|]. cbn in F1. destruct (seqb k' k) eqn:E; [apply seqb_eq in E; congruence | exact H].
Qed.

Lemma fold_map {A B C} (f : C -> B -> C) (g : A -> B) l c : fold_left f (map g l) c = fold_left (fun c a => f c (g a)) l c.
Proof. revert c. induction l; intros c; cbn; auto. Qed.

Lemma alias_loop_fold ss : forall d d', alias_loop ss d = DOk d' ->
  d' = fold_left (fun d p => d_set (fst p) (snd p) d)
        (flat_map (fun s => match attr_first [] "w:styleId" s with
                     | Some id => (id, id) :: map (fun a => (strip a, id))
                         (split_char 44 (match attr_first ["w:aliases"] "w:val" s with Some a => a | None => [] end))
                     | None => [] end) ss) d.
Proof.
  induction ss as [|s ss IH]; intros d d' H; cbn [alias_loop flat_map] in *; [injection H as <-; reflexivity|].
  unfold attr_first_req in H. destruct (attr_first [] "w:styleId" s) as [id|]; cbn [dbind] in H; [|discriminate].
  rewrite fold_left_app. cbn [fold_left fst snd]. rewrite fold_map. cbn [fst snd]. apply IH. exact H.
Qed.

(** Pairs whose value depends on where they come from: the last pair with a key comes from the
    last place that has the key. *)
Lemma last_binding_flat {A V} (F : A -> list (str * V)) (val : A -> V) k v l :
  (forall a p, In a l -> In p (F a) -> snd p = val a) ->
  (last_binding k v (flat_map F l) <-> exists a, last_with (fun a => In k (map fst (F a))) l a /\ v = val a).
Proof.
  induction l as [|a l IH] using rev_ind; intros H.
  - cbn [flat_map]. split; [intros X; exfalso; exact (last_cons_nil _ _ X)|]. intros (a & (l1 & l2 & E & _) & _). destruct l1; discriminate.
  - assert (H' : forall b p, In b l -> In p (F b) -> snd p = val b) by (intros b p I; apply H, in_or_app; left; exact I). specialize (IH H').
    rewrite flat_map_app. cbn [flat_map]. rewrite app_nil_r. destruct (in_dec (list_eq_dec N.eq_dec) k (map fst (F a))) as [IN|NI].
    + assert (VA : forall p, In p (F a) -> snd p = val a) by (intros p; apply H, in_or_app; right; left; reflexivity). split.
      * intros (X & Y & E & N). exists a. split; [exists l, []; split; [reflexivity|]; split; [exact IN | constructor]|].
        apply (VA (k, v)). assert (L : In (k, v) (F a) \/ exists Z, Y = Z ++ F a).
        { clear - E. revert X E. generalize (flat_map F l) as G. intros G X E. apply app_eq_app in E as (M & [[-> E2]|[-> E2]]).
          - destruct M as [|m M]; cbn [app] in E2; [left; rewrite <- E2; left; reflexivity|]. injection E2 as <- ->. right. exists M. reflexivity.
          - left. rewrite E2. apply in_or_app. right. left. reflexivity. }
        destruct L as [L|(Z & ->)]; [exact L|]. exfalso. apply Forall_app in N as [_ N]. rewrite Forall_forall in N.
        apply in_map_iff in IN as (p & <- & IP). exact (N p IP eq_refl).
      * intros (b & (l1 & l2 & E & IB & N) & ->).
        assert (b = a) as ->.
        { destruct l2 as [|c l2] using rev_ind; [apply app_inj_tail in E as [_ E]; congruence|]. rewrite app_comm_cons, app_assoc in E. apply app_inj_tail in E as [_ ->].
          exfalso. apply Forall_app in N as [_ N]. inversion N; contradiction. }
        clear - IN VA. assert (exists X Y, F a = X ++ (k, val a) :: Y /\ Forall (fun p => fst p <> k) Y) as (X & Y & E & N).
        { revert IN VA. induction (F a) as [|[k' v'] r IH]; intros IN VA; [destruct IN|]. destruct (in_dec (list_eq_dec N.eq_dec) k (map fst r)) as [I|NI].
          - destruct (IH I) as (X & Y & -> & N); [intros p IP; apply VA; right; exact IP|]. exists ((k', v') :: X), Y. auto.
          - destruct IN as [E|I]; [|contradiction]. cbn in E. subst k'. pose proof (VA (k, v') (or_introl eq_refl)) as E. cbn in E. subst v'.
            exists [], r. split; [reflexivity|]. apply Forall_forall. intros p IP E. apply NI, in_map_iff. eauto. }
        exists (flat_map F l ++ X), Y. split; [rewrite E, app_assoc; reflexivity | exact N].
    + assert (FN : Forall (fun p => fst p <> k) (F a)) by (apply Forall_forall; intros p IP E; apply NI, in_map_iff; eauto).
      assert (EQ : last_binding k v (flat_map F l ++ F a) <-> last_binding k v (flat_map F l)).
      { split.
        - intros (X & Y & E & N). apply app_eq_app in E as (M & [[E1 E2]|[E1 E2]]).
          + destruct M as [|m M]; cbn [app] in E2.
            * exfalso. rewrite <- E2 in FN. inversion FN as [|? ? NK]; subst. apply NK. reflexivity.
            * injection E2 as <- ->. exists X, M. split; [exact E1|]. apply Forall_app in N. tauto.
          + exfalso. rewrite E2 in FN. apply Forall_app in FN as [_ FN]. inversion FN as [|? ? NK]; subst. apply NK. reflexivity.
        - intros (X & Y & -> & N). exists X, (Y ++ F a). split; [rewrite <- app_assoc; reflexivity|]. apply Forall_app. auto. }
      rewrite EQ, IH. split.
      * intros (b & (l1 & l2 & -> & IB & N) & ->). exists b. split; [|reflexivity]. exists l1, (l2 ++ [a]). split; [rewrite <- app_assoc; reflexivity|].
        split; [exact IB|]. apply Forall_app. auto.
      * intros (b & (l1 & l2 & E & IB & N) & ->). exists b. split; [|reflexivity].
        destruct l2 as [|c l2] using rev_ind.
        -- apply app_inj_tail in E as [-> ->]. contradiction.
        -- rewrite app_comm_cons, app_assoc in E. apply app_inj_tail in E as [-> ->]. exists l1, l2. apply Forall_app in N. tauto.
Qed.

(** White space at the ends. *)
Lemma strip_trimmed s t : strip s = t <-> trimmed s t.
Proof.
  assert (T : forall b, trimmed b (strip b)).
  { intros b. unfold strip. split.
    - destruct (strip_sub isspace b) as (x & y & E & X & Y). exists x, y. rewrite !Forall_forallb. auto.
    - destruct (strip_ends isspace b) as [S1 S2]. split; intros c r E.
      + rewrite E in S1. exact S1.
      + rewrite E, rev_app_distr in S2. exact S2. }
  split; [intros <-; apply T|].
  assert (U : forall a t b a' t' b', a ++ t ++ b = a' ++ t' ++ b' -> Forall (fun c => isspace c = true) a -> Forall (fun c => isspace c = true) b ->
    Forall (fun c => isspace c = true) a' -> Forall (fun c => isspace c = true) b' ->
    (forall c r, t = c :: r -> isspace c = false) -> (forall c r, t = r ++ [c] -> isspace c = false) ->
    (forall c r, t' = c :: r -> isspace c = false) -> (forall c r, t' = r ++ [c] -> isspace c = false) -> t <> [] -> t = t').
  { clear. intros a t b a' t' b' E A B A' B' T1 T2 T1' T2' NE.
    assert (NE' : t' <> []).
    { intros ->. cbn [app] in E. assert (X : Forall (fun c => isspace c = true) (a ++ t ++ b)) by (rewrite E; apply Forall_app; auto).
      apply Forall_app in X as [_ X]. apply Forall_app in X as [X _]. destruct t as [|c r]; [congruence|]. inversion X as [|? ? Y]; subst. rewrite (T1 c r eq_refl) in Y. discriminate. }
    assert (L : a = a' /\ t ++ b = t' ++ b').
    { clear T2 T2' B B'. revert a' E A'. induction a as [|x a IH]; intros [|x' a'] E A'; cbn [app] in E; auto.
      - exfalso. destruct t as [|c r]; [congruence|]. cbn [app] in E. injection E as -> _. inversion A' as [|? ? Y]; subst. rewrite (T1 x' r eq_refl) in Y. discriminate.
      - exfalso. destruct t' as [|c r]; [congruence|]. cbn [app] in E. injection E as -> _. inversion A as [|? ? Y]; subst. rewrite (T1' c r eq_refl) in Y. discriminate.
      - injection E as -> E. inversion A; inversion A'; subst. destruct (IH ltac:(assumption) a' E ltac:(assumption)) as [-> X]. auto. }
    destruct L as [_ E2]. clear - E2 B B' T2 T2' NE NE'.
    revert b' E2 B'. induction b as [|x b IH] using rev_ind; intros b' E2 B'; (destruct b' as [|x' b' _] using rev_ind).
    - rewrite !app_nil_r in E2. exact E2.
    - exfalso. rewrite app_nil_r, app_assoc in E2. pose proof (T2 _ _ E2) as Q. apply Forall_app in B' as [_ B']. apply Forall_inv in B'. congruence.
    - exfalso. rewrite app_nil_r, app_assoc in E2. pose proof (T2' _ _ (eq_sym E2)) as Q. apply Forall_app in B as [_ B]. apply Forall_inv in B. congruence.
    - rewrite !app_assoc in E2. apply app_inj_tail in E2 as [E2 _]. apply Forall_app in B as [B _], B' as [B' _]. exact (IH B b' E2 B'). }
  intros ((a & b & E & A & B) & T1 & T2). destruct (T s) as ((a' & b' & E' & A' & B') & T1' & T2').
  destruct t as [|c r].
  - destruct (strip s) as [|c' r'] eqn:SS; [reflexivity|]. symmetry. rewrite E in E'. apply (fun e n => eq_sym (U a' (c' :: r') b' a [] b (eq_sym e) A' B' A B T1' T2' T1 T2 n)); [exact E' | discriminate].
  - symmetry. apply (U a (c :: r) b a' (strip s) b'); try assumption; [congruence | discriminate].
Qed.

(** ** The properties of a w:rPr element *)
Lemma toggles_iff t e o : bprop_val e t = o <-> toggles t e o.
Proof.
  unfold bprop_val, toggles. destruct (elem_first [t] e) as [x|] eqn:E.
  - assert (FC := proj1 (first_child_iff _ _ _) E). rewrite attr_here. destruct o as [b|].
    + assert (B : (match w_attr "w:val" x with None => true | Some v => negb (seqb (strip v) (utf8 "0")) end) = false <-> exists v, w_attr "w:val" x = Some v /\ trimmed v (utf8 "0")).
      { destruct (w_attr "w:val" x) as [v|].
        - destruct (seqb (strip v) (utf8 "0")) eqn:Q; cbn [negb].
          + apply seqb_eq, strip_trimmed in Q. split; [eauto | reflexivity].
          + split; [discriminate|]. intros (v' & [= <-] & TR). apply strip_trimmed in TR. rewrite TR, seqb_refl in Q. discriminate.
        - split; [discriminate | intros (v & X & _); discriminate]. }
      split.
      * intros [= <-]. exists x. split; [exact FC | exact B].
      * intros (x' & FC' & B'). rewrite (first_with_det _ _ _ _ FC' FC) in B'. f_equal.
        destruct (match w_attr "w:val" x with None => true | Some v => _ end), b; try reflexivity.
        -- exfalso. assert (true = false) by (apply B, B'; reflexivity). discriminate.
        -- exfalso. assert (true = false) by (apply B', B; reflexivity). discriminate.
    + split; [discriminate|]. intros N. exfalso. destruct FC as (a & b & K & TG & _). apply (N x). split; [rewrite K; apply in_or_app; right; left; reflexivity | exact TG].
  - pose proof (proj1 (no_child_iff _ _) E) as N. destruct o as [b|]; [|tauto]. split; [discriminate|]. intros (x & FC & _). apply first_child_iff in FC. congruence.
Qed.
Lemma underlines_iff e o : u_val e = DOk o <-> underlines e o.
Proof.
  unfold u_val, underlines. destruct (elem_first ["w:u"] e) as [x|] eqn:E.
  - assert (FC := proj1 (first_child_iff _ _ _) E). unfold attr_first_req. rewrite attr_here. destruct o as [b|].
    + split.
      * destruct (w_attr "w:val" x) as [v|] eqn:V; cbn [dbind]; [|discriminate]. intros [= <-]. exists x, v. split; [exact FC|]. split; [exact V|].
        match goal with |- context [seqb v ?n] => change n with (utf8 "none") end.
        destruct (seqb v (utf8 "none")) eqn:Q; cbn [negb]; [apply seqb_eq in Q; split; [intros _; exact Q | reflexivity]|]. split; [discriminate|]. intros ->. rewrite seqb_refl in Q. discriminate.
      * intros (x' & v & FC' & V & B). rewrite (first_with_det _ _ _ _ FC' FC) in V. rewrite V. cbn [dbind]. do 2 f_equal.
        destruct (seqb v (utf8 "none")) eqn:Q; cbn [negb]; [apply seqb_eq in Q; symmetry; apply B; exact Q|]. destruct b; [reflexivity|]. rewrite (proj1 B eq_refl), seqb_refl in Q. discriminate.
    + split; [destruct (w_attr "w:val" x); discriminate|]. intros N. exfalso. destruct FC as (a & b & K & TG & _). apply (N x). split; [rewrite K; apply in_or_app; right; left; reflexivity | exact TG].
  - pose proof (proj1 (no_child_iff _ _) E) as N. destruct o as [b|]; [|tauto]. split; [discriminate|]. intros (x & v & FC & _). apply first_child_iff in FC. congruence.
Qed.
Lemma aligns_iff e o : valign_of (attr_first ["w:vertAlign"] "w:val" e) = DOk o <-> aligns e o.
Proof.
  unfold aligns. destruct (attr_first ["w:vertAlign"] "w:val" e) as [v|] eqn:E.
  - assert (V := proj1 (first_value_iff _ _ _ _) E). assert (D : forall w, first_value ["w:vertAlign"] "w:val" e w <-> w = v) by (intros w; split; [intros W; exact (first_value_det _ _ _ _ _ W V) | intros ->; exact V]).
    assert (NV : ~ no_value ["w:vertAlign"] "w:val" e) by (intros N; exact (N v V)).
    destruct v as [|c r].
    + cbn [valign_of]. destruct o as [a|]; [|split; [intros _; right; exact V | reflexivity]]. rewrite D. split; [discriminate|]. destruct a; discriminate.
    + cbn [valign_of]. set (v := c :: r) in *. destruct o as [a|]; rewrite D.
      * destruct (seqb v (utf8 "baseline")) eqn:Q1; [apply seqb_eq in Q1; rewrite Q1; destruct a; vm_compute; split; congruence|].
        destruct (seqb v (utf8 "subscript")) eqn:Q2; [apply seqb_eq in Q2; rewrite Q2; destruct a; vm_compute; split; congruence|].
        destruct (seqb v (utf8 "superscript")) eqn:Q3; [apply seqb_eq in Q3; rewrite Q3; destruct a; vm_compute; split; congruence|].
        split; [discriminate|]. intros X. exfalso. destruct a; cbn [valign_name] in X; rewrite <- X, seqb_refl in *; discriminate.
      * split; [|intros [N|X]; [contradiction | discriminate X]].
        destruct (seqb v (utf8 "baseline")); [discriminate|]. destruct (seqb v (utf8 "subscript")); [discriminate|]. destruct (seqb v (utf8 "superscript")); discriminate.
  - assert (N := proj1 (no_value_iff _ _ _) E). cbn [valign_of]. destruct o as [a|]; [|tauto]. split; [discriminate|]. intros V. exfalso. exact (N _ V).
Qed.
Lemma colours_iff e o : (match attr_first ["w:color"] "w:val" e with
         | Some c => if (List.length c =? 6)%nat then Some c else None | None => None end) = o <-> colours e o.
Proof.
  unfold colours. destruct (attr_first ["w:color"] "w:val" e) as [v|] eqn:E.
  - assert (V := proj1 (first_value_iff _ _ _ _) E). destruct (Nat.eqb_spec (List.length v) 6) as [L|L]; destruct o as [c|].
    + split; [intros [= <-]; auto|]. intros [W _]. f_equal. exact (first_value_det _ _ _ _ _ V W).
    + split; [discriminate|]. intros N. exfalso. exact (N v V L).
    + split; [discriminate|]. intros [W X]. rewrite (first_value_det _ _ _ _ _ W V) in X. contradiction.
    + split; [|reflexivity]. intros _ c W. rewrite (first_value_det _ _ _ _ _ W V). exact L.
  - assert (N := proj1 (no_value_iff _ _ _) E). destruct o as [c|].
    + split; [discriminate|]. intros [V _]. exfalso. exact (N _ V).
    + split; [|reflexivity]. intros _ c V. exfalso. exact (N _ V).
Qed.

(** What a w:rPr element sets. *)
Theorem C51_props e p : from_rpr e = DOk p <-> run_props e p.
Proof.
  unfold from_rpr, run_props. rewrite <- !toggles_iff, <- underlines_iff, <- aligns_iff, <- colours_iff. destruct p as [b i u s v c]. cbn [rp_bold rp_italics rp_underline rp_strike rp_valign rp_color].
  destruct (u_val e) as [u'| |]; cbn [dbind]; [|split; [discriminate | intros (_ & _ & X & _); discriminate X]..].
  destruct (valign_of _) as [v'| |]; cbn [dbind]; [|split; [discriminate | intros (_ & _ & _ & _ & X & _); discriminate X]..].
  split; [intros [= <- <- <- <- <- <-]; auto 10|]. intros (<- & <- & [= <-] & <- & [= <-] & <-). reflexivity.
Qed.
Print Assumptions C51_props.
Lemma own_props_iff s o : from_rpr_elem (elem_first ["w:rPr"] s) = DOk o <-> own_props s o.
Proof.
  unfold from_rpr_elem, own_props. destruct (elem_first ["w:rPr"] s) as [e|] eqn:E.
  - assert (FC := proj1 (first_child_iff _ _ _) E). destruct o as [p|].
    + split.
      * destruct (from_rpr e) as [q| |] eqn:Q; cbn [dbind]; try discriminate. intros [= <-]. exists e. split; [exact FC | apply C51_props; exact Q].
      * intros (e' & FC' & P). rewrite (first_with_det _ _ _ _ FC' FC) in P. apply C51_props in P. rewrite P. reflexivity.
    + split; [destruct (from_rpr e); discriminate|]. intros N. exfalso. destruct FC as (a & b & K & TG & _). apply (N e). split; [rewrite K; apply in_or_app; right; left; reflexivity | exact TG].
  - pose proof (proj1 (no_child_iff _ _) E) as N. destruct o as [b|]; [|tauto]. split; [discriminate|]. intros (x & FC & _). apply first_child_iff in FC. congruence.
Qed.

(** ** Names of styles *)
Definition style_names1 (s : welem) : list (str * str) :=
  match attr_first [] "w:styleId" s with
  | Some id => (id, id) :: map (fun a => (strip a, id))
      (split_char 44 (match attr_first ["w:aliases"] "w:val" s with Some a => a | None => [] end))
  | None => [] end.
Definition style_names (ty : string) (doc : welem) : list (str * str) := flat_map style_names1 (styles_of ty doc).
Lemma called_iff s n id : called s n id <-> w_attr "w:styleId" s = Some id /\ In n (map fst (style_names1 s)).
Proof.
  unfold called, style_names1. rewrite attr_here. split.
  - intros (-> & H). split; [reflexivity|]. cbn [map fst In]. destruct H as [->|(al & ps & a & AL & E & NE & F & IA & TR)]; [left; reflexivity|]. right.
    rewrite map_map. cbn [fst]. assert (X : match attr_first ["w:aliases"] "w:val" s with Some a => a | None => [] end = al).
    { destruct AL as [V|[N ->]]; [apply first_value_iff in V; rewrite V; reflexivity | apply no_value_iff in N; rewrite N; reflexivity]. }
    rewrite X, E, (split_char_unique _ NE F). apply in_map_iff. exists a. split; [apply strip_trimmed; exact TR | exact IA].
  - intros (E & I). rewrite E in I. split; [exact E|]. cbn [map fst In] in I. destruct I as [->|I]; [left; reflexivity|]. right. rewrite map_map in I. cbn [fst] in I.
    apply in_map_iff in I as (a & TR & IA). apply strip_trimmed in TR.
    destruct (split_char_join (match attr_first ["w:aliases"] "w:val" s with Some a => a | None => [] end)) as (J & NE & F).
    eexists _, _, a. split; [|split; [exact J|]; split; [exact NE|]; split; [exact F|]; split; [exact IA | exact TR]].
    destruct (attr_first ["w:aliases"] "w:val" s) as [v|] eqn:V; [left; apply first_value_iff; exact V | right; split; [apply no_value_iff; exact V | reflexivity]].
Qed.
Lemma names_style_iff ty doc n id : last_binding n id (style_names ty doc) <-> names_style ty doc n id.
Proof.
  unfold style_names, names_style. change (typed ty doc) with (styles_of ty doc).
  rewrite (last_binding_flat style_names1 (fun s => match w_attr "w:styleId" s with Some i => i | None => [] end)).
  - assert (X : forall s, (exists i, called s n i) <-> In n (map fst (style_names1 s))).
    { intros s. split; [intros (i & C); apply called_iff in C; tauto|]. intros I. unfold style_names1 in I. rewrite attr_here in I.
      destruct (w_attr "w:styleId" s) as [i|] eqn:E; [|destruct I]. exists i. apply called_iff. split; [exact E|]. unfold style_names1. rewrite attr_here, E. exact I. }
    split.
    + intros (s & (l1 & l2 & E & IN & F) & ->). exists s. apply X in IN as IN'. destruct IN' as (i & C). pose proof C as (C1 & _). split.
      * exists l1, l2. split; [exact E|]. split; [eauto|]. eapply Forall_impl; [|exact F]. cbn. intros y N Y. apply N, X. exact Y.
      * rewrite C1. exact C.
    + intros (s & (l1 & l2 & E & IN & F) & C). exists s. pose proof C as (C1 & _). rewrite C1. split; [|reflexivity]. exists l1, l2. split; [exact E|]. split; [apply X; exact IN|].
      eapply Forall_impl; [|exact F]. cbn. intros y N Y. apply N, X. exact Y.
  - intros s p _ I. unfold style_names1 in I. rewrite attr_here in I. destruct (w_attr "w:styleId" s) as [i|]; [|destruct I].
    destruct I as [<-|I]; [reflexivity|]. apply in_map_iff in I as (a & <- & _). reflexivity.
Qed.
Lemma alias_dct_ids ty doc : (exists d, alias_dct ty doc = DOk d) <-> styles_have_ids ty doc.
Proof.
  unfold alias_dct, styles_have_ids. change (typed ty doc) with (styles_of ty doc). generalize (@nil (str * str)) as d0.
  induction (styles_of ty doc) as [|s l IH]; intros d0; cbn [alias_loop].
  - split; [constructor | eauto].
  - unfold attr_first_req. rewrite attr_here. destruct (w_attr "w:styleId" s) as [i|] eqn:E; cbn [dbind].
    + rewrite IH. split; [intros F; constructor; eauto | inversion 1; assumption].
    + split; [intros (d & X); discriminate | inversion 1 as [|? ? (i & X)]; congruence].
Qed.
Lemma alias_dct_get ty doc d n id : alias_dct ty doc = DOk d -> (d_get n d = Some id <-> names_style ty doc n id).
Proof.
  intros D. unfold alias_dct in D. apply alias_loop_fold in D. rewrite D, d_get_fold, <- names_style_iff. unfold style_names, style_names1.
  split; [intros [X|[_ X]]; [exact X | discriminate X] | auto].
Qed.

Lemma combines_det os o o' : combines os o -> combines os o' -> o = o'.
Proof.
  intros (N & A1 & A2 & A3 & A4 & A5 & A6) (N' & B1 & B2 & B3 & B4 & B5 & B6).
  destruct o as [[b i u s v c]|], o' as [[b' i' u' s' v' c']|].
  - cbn [prop_of rp_bold rp_italics rp_underline rp_strike rp_valign rp_color] in *. congruence.
  - exfalso. assert (Some {| rp_bold := b; rp_italics := i; rp_underline := u; rp_strike := s; rp_valign := v; rp_color := c |} = None) by (apply N, N'; reflexivity). discriminate.
  - exfalso. assert (Some {| rp_bold := b'; rp_italics := i'; rp_underline := u'; rp_strike := s'; rp_valign := v'; rp_color := c' |} = None) by (apply N', N; reflexivity). discriminate.
  - reflexivity.
Qed.

Lemma style_chain_own ty doc : forall f id r, style_chain f ty doc id = DOk r ->
  exists ss os, chain ty doc id ss /\ Forall2 own_props ss os /\ (List.length ss <= f)%nat.
Proof.
  induction f as [|f IH]; intros id r H; [discriminate|]. cbn [style_chain] in H.
  change (find _ (styles_of ty doc)) with (find (id_is id) (styles_of ty doc)) in H.
  destruct (find (id_is id) (styles_of ty doc)) as [s|] eqn:F; [|discriminate]. apply find_style in F.
  destruct (from_rpr_elem _) as [rpr| |] eqn:P; cbn [dbind] in H; try discriminate. apply own_props_iff in P.
  destruct (attr_first ["w:basedOn"] "w:val" s) as [b|] eqn:B.
  - destruct (style_chain f ty doc b) as [q| |] eqn:Q; cbn [dbind] in H; try discriminate. destruct (IH b q Q) as (ss & os & C & FO & L).
    exists (s :: ss), (rpr :: os). split; [apply (ch_more _ _ _ _ _ _ F (proj1 (first_value_iff _ _ _ _) B) C)|]. split; [constructor; assumption | cbn; lia].
  - exists [s], [rpr]. split; [apply ch_last; [exact F | apply no_value_iff; exact B]|]. split; [repeat constructor; exact P | cbn; lia].
Qed.

(** The format the name of a style stands for: the name is, last of all, that of a style; each
    property is that of the nearest style in its chain that sets it. *)
Theorem C51_value ty doc n o : get_style ty doc n = DOk o <-> style_format ty doc n o.
Proof.
  unfold get_style, style_format. split.
  - destruct (alias_dct ty doc) as [d| |] eqn:D; cbn [dbind]; try discriminate. destruct (d_get n d) as [id|] eqn:G; [|discriminate]. intros H.
    split; [apply alias_dct_ids; eauto|]. apply (alias_dct_get _ _ _ _ _ D) in G. destruct (style_chain_own _ _ _ _ _ H) as (ss & os & C & FO & L).
    exists id, ss, os. split; [exact G|]. split; [exact C|]. split; [exact FO|].
    destruct (style_chain_value _ _ _ _ C _ os L) as (r & E & V); [|rewrite H in E; injection E as ->; exact V].
    clear - FO. induction FO as [|s o ss os P _ IH]; constructor; [apply own_props_iff; exact P | exact IH].
  - intros (IDS & id & ss & os & G & C & FO & V). apply alias_dct_ids in IDS as (d & D). rewrite D. cbn [dbind]. rewrite (proj2 (alias_dct_get _ _ _ _ _ D) G).
    destruct (style_chain_value _ _ _ _ C (style_fuel ty doc) os) as (r & E & V').
    + unfold style_fuel. pose proof (chain_length _ _ _ _ C). lia.
    + clear - FO. induction FO as [|s o ss os P _ IH]; constructor; [apply own_props_iff; exact P | exact IH].
    + rewrite E. f_equal. exact (combines_det _ _ _ V' V).
Qed.

(** A name no style has, and a style whose chain does not end in this document (it is cyclic or
    names a style that is not there), raise. *)
Theorem C51_raises ty doc n :
  (forall id ss, names_style ty doc n id -> ~ chain ty doc id ss) ->
  exists e, get_style ty doc n = DErr e.
Proof.
  intros NO. destruct (get_style ty doc n) as [o|e|] eqn:G; [|eauto|].
  - exfalso. apply C51_value in G as (_ & id & ss & os & N & C & _). exact (NO id ss N C).
  - exfalso. unfold get_style in G. destruct (alias_dct ty doc) as [d| |] eqn:D; cbn [dbind] in G; try discriminate.
    + destruct (d_get n d); [|discriminate]. exact (style_chain_nofuel _ _ _ _ G).
    + unfold alias_dct in D. revert D. generalize (@nil (str * str)) as d0. induction (styles_of ty doc) as [|s l IH]; intros d0; cbn [alias_loop]; [discriminate|].
      unfold attr_first_req. destruct (attr_first [] "w:styleId" s); cbn [dbind]; [apply IH | discriminate].
Qed.

(** The format of a run. *)
Theorem C51_run styles r o : extract_r_rpr styles r = DOk o <-> run_format styles r o.
Proof.
  unfold extract_r_rpr. destruct (elem_first ["w:rPr"] r) as [e|] eqn:E.
  - assert (FC := proj1 (first_child_iff _ _ _) E).
    assert (NN : ~ forall x, ~ child "w:rPr" r x) by (intros N; apply no_child_iff in N; congruence).
    assert (MC : forall p q, combines [Some p; q] (Some (match q with None => p | Some q => rp_merge q p end))).
    { intros p q. unfold combines. split; [split; [discriminate | inversion 1; discriminate]|].
      destruct p as [b i u s v c]. destruct q as [[b' i' u' s' v' c']|]; cbn [prop_of nearest rp_merge rp_bold rp_italics rp_underline rp_strike rp_valign rp_color]; unfold or_else;
        repeat split; repeat match goal with |- context [match ?x with _ => _ end] => destruct x end; reflexivity. }
    split.
    + destruct (from_rpr e) as [p| |] eqn:P; cbn [dbind]; try discriminate. apply C51_props in P.
      destruct (attr_first ["w:rStyle"] "w:val" e) as [id|] eqn:ST.
      * destruct (get_style _ styles id) as [q| |] eqn:G; cbn [dbind]; try discriminate. apply C51_value in G. intros [= <-].
        eapply rft_style; [exact FC | exact P | apply first_value_iff; exact ST | exact G | apply MC].
      * intros [= <-]. eapply rft_own; [exact FC | exact P | apply no_value_iff; exact ST].
    + intros [N|e' p FC' P NS|e' p id q o' FC' P ST G CB]; [contradiction|..]; rewrite (first_with_det _ _ _ _ FC' FC) in *; apply C51_props in P; rewrite P; cbn [dbind].
      * apply no_value_iff in NS. rewrite NS. reflexivity.
      * apply first_value_iff in ST. rewrite ST. apply C51_value in G. rewrite G. cbn [dbind]. f_equal. exact (combines_det _ _ _ (MC p q) CB).
  - pose proof (proj1 (no_child_iff _ _) E) as N. split; [intros [= <-]; apply rft_none; exact N|].
    intros [_|e p FC _ _|e p id q o' FC _ _ _ _]; [reflexivity | | ]; apply first_child_iff in FC; congruence.
Qed.
Print Assumptions C51_run.

Lemma based_shorter ty doc x y : clos_trans_1n _ (based_on ty doc) x y ->
  forall ss, chain ty doc x ss -> exists t, chain ty doc y t /\ (List.length t < List.length ss)%nat.
Proof.
  assert (S : forall x y, based_on ty doc x y -> forall ss, chain ty doc x ss -> exists t, chain ty doc y t /\ (List.length t < List.length ss)%nat).
  { intros a b (s & HS & HB) ss C.
    inversion C as [? s' HS' HB'|? s' b' t HS' HB' HC']; subst; apply find_style in HS, HS'; rewrite HS in HS'; injection HS' as <-; [exfalso; exact (HB' _ HB)|].
    rewrite <- (first_value_det _ _ _ _ _ HB HB') in HC'. exists t. split; [exact HC' | cbn; lia]. }
  induction 1 as [x y H|x y z H _ IH]; intros ss C; [exact (S x y H ss C)|].
  destruct (S x y H ss C) as (t & Ct & Lt). destruct (IH t Ct) as (u & Cu & Lu). exists u. split; [exact Cu | lia].
Qed.

(** A chain that comes back to its beginning, or reaches a name no style has, does not end. *)
Theorem C51_cycle ty doc x :
  clos_trans_1n _ (based_on ty doc) x x
  \/ (exists y, clos_trans_1n _ (based_on ty doc) x y /\ forall s, ~ is_style ty doc y s) ->
  forall ss, ~ chain ty doc x ss.
Proof.
  assert (W : forall n ss, (List.length ss < n)%nat -> clos_trans_1n _ (based_on ty doc) x x -> ~ chain ty doc x ss).
  { induction n as [|n IH]; intros ss L H C; [lia|]. destruct (based_shorter _ _ _ _ H ss C) as (t & Ct & Lt).
    exact (IH t ltac:(lia) H Ct). }
  intros [H|(y & H & U)] ss C; [exact (W _ ss (Nat.lt_succ_diag_r _) H C)|].
  destruct (based_shorter _ _ _ _ H ss C) as (t & Ct & _). inversion Ct; subst; eapply U; eassumption.
Qed.
Print Assumptions C51_value.
Print Assumptions C51_raises.
Print Assumptions C51_cycle.

Definition mk_style (i : N) (id : string) (based : option string) (bold : bool) : welem :=
  W i (utf8 "w:style") [(utf8 "w:type", utf8 "character"); (utf8 "w:styleId", utf8 id)] None
    (match based with Some b => [W (i + 1) (utf8 "w:basedOn") [(utf8 "w:val", utf8 b)] None []] | None => [] end
     ++ [W (i + 2) (utf8 "w:rPr") [] None (if bold then [W (i + 3) (utf8 "w:b") [] None []] else [W (i + 3) (utf8 "w:i") [] None []])]).
Definition style_doc : welem :=
  W 0 (utf8 "w:styles") [] None [mk_style 10 "Base" None true; mk_style 20 "Derived" (Some "Base") false; mk_style 30 "Loop" (Some "Loop") true].
Example C51_ex : get_style "character" style_doc (utf8 "Derived") = DOk (Some (mkRp (Some true) (Some true) None None None None))
  /\ get_style "character" style_doc (utf8 "Loop") = DErr DRecursion
  /\ get_style "character" style_doc (utf8 "Nope") = DErr DKey
  /\ styles_ok style_doc = DOk tt.
Proof. repeat split; vm_compute; reflexivity. Qed.
Example C51_loop : clos_trans_1n _ (based_on "character" style_doc) (utf8 "Loop") (utf8 "Loop").
Proof. apply t1n_step. eexists. split; [apply find_style; vm_compute; reflexivity | apply first_value_iff; vm_compute; reflexivity]. Qed.
Example C51_chain : exists ss, chain "character" style_doc (utf8 "Derived") ss /\ List.length ss = 2%nat
  /\ names_style "character" style_doc (utf8 "Derived") (utf8 "Derived").
Proof.
  eexists. split; [|split].
  - eapply ch_more; [apply find_style; vm_compute; reflexivity | apply first_value_iff; vm_compute; reflexivity|].
    apply ch_last; [apply find_style; vm_compute; reflexivity | apply no_value_iff; vm_compute; reflexivity].
  - reflexivity.
  - apply names_style_iff. exists [(utf8 "Base", utf8 "Base"); ([], utf8 "Base")], [([], utf8 "Derived"); (utf8 "Loop", utf8 "Loop"); ([], utf8 "Loop")].
    split; [vm_compute; reflexivity|]. repeat constructor; vm_compute; discriminate.
Qed.
(** A run with a style of which it takes the slope, and no bold text. *)
Definition fx_run : welem := W 50 (utf8 "w:r") [] None
  [W 51 (utf8 "w:rPr") [] None [W 52 (utf8 "w:rStyle") [(utf8 "w:val", utf8 "Derived")] None []; W 53 (utf8 "w:b") [(utf8 "w:val", utf8 "0")] None []]].
Example C51_run_ex : run_format style_doc fx_run (Some (mkRp (Some false) (Some true) None None None None)).
Proof. apply C51_run. vm_compute. reflexivity. Qed.
