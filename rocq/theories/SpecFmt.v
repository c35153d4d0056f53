(** Independent vocabulary for the properties about text, formats, styles, streams and the
    header of a docx document. *)
From Coq Require Import NArith ZArith List Bool String.
From Verif Require Import PyStr Docx SpecQuery.
Import ListNotations.
Local Open Scope string_scope.
Local Open Scope list_scope.
Local Open Scope N_scope.

(** ** Reading escaped text (XML): a reference stands for a character; "&" and "<" stand for
    themselves nowhere. *)
Definition references : list (str * N) :=
  [(utf8 "&amp;", 38); (utf8 "&lt;", 60); (utf8 "&gt;", 62); (utf8 "&quot;", 34); (utf8 "&#x27;", 39)].
Inductive reads : str -> str -> Prop :=
| rd_nil : reads [] []
| rd_char c s t : c <> 38 -> c <> 60 -> reads s t -> reads (c :: s) (c :: t)
| rd_ref n c s t : In (n, c) references -> reads s t -> reads (n ++ s) (c :: t).

(** ** Streams *)
Inductive s_op := OpEnd | OpPeek | OpConsume.
(** What an operation gives: whether the end is reached, an element, or StopIteration. *)
Inductive s_res (A : Type) := REnd (b : bool) | RElem (a : A) | RStop.
Arguments REnd {A}. Arguments RElem {A}. Arguments RStop {A}.
(** A sequence of operations on the stream of the list [l], told by the list alone: results and
    what is left. *)
Fixpoint expected {A} (ops : list s_op) (l : list A) : list (s_res A) * list A :=
  match ops with
  | [] => ([], l)
  | op :: r =>
      let '(x, l') := match op, l with
                      | OpEnd, [] => (REnd true, l)
                      | OpEnd, _ => (REnd false, l)
                      | _, [] => (RStop, l)
                      | OpPeek, a :: _ => (RElem a, l)
                      | OpConsume, a :: l' => (RElem a, l')
                      end in
      let '(xs, l'') := expected r l' in (x :: xs, l'')
  end.
(** The same operations done on the stream. *)
Fixpoint performed {A} (ops : list s_op) (s : stream A) : list (s_res A) * stream A :=
  match ops with
  | [] => ([], s)
  | op :: r =>
      let '(x, s') := match op with
                      | OpEnd => (REnd (s_end s), s)
                      | OpPeek => (match s_peek s with Some a => RElem a | None => RStop end, s)
                      | OpConsume => match s_consume s with Some (a, s') => (RElem a, s') | None => (RStop, s) end
                      end in
      let '(xs, s'') := performed r s' in (x :: xs, s'')
  end.

(** ** CSS attributes: a finite map *)
Definition css_get (k : string) (l : list (str * str)) : option str := d_get (utf8 k) l.
Definition same_css (a b : list (str * str)) : Prop := forall k : str, d_get k a = d_get k b.

(** ** Run properties *)

(** [s] without the white space at its ends. *)
Definition trimmed (s t : str) : Prop :=
  (exists a b, s = a ++ t ++ b /\ Forall (fun c => isspace c = true) a /\ Forall (fun c => isspace c = true) b)
  /\ (forall c r, t = c :: r -> isspace c = false) /\ (forall c r, t = r ++ [c] -> isspace c = false).
(** What the property [t] of a run is set to: nothing without the element; on, unless its value
    is 0. *)
Definition toggles (t : string) (e : welem) (o : option bool) : Prop :=
  match o with
  | None => forall x, ~ child t e x
  | Some b => exists x, first_child t e x
      /\ (b = false <-> exists v, w_attr "w:val" x = Some v /\ trimmed v (utf8 "0"))
  end.
(** Underlining has to have a value. *)
Definition underlines (e : welem) (o : option bool) : Prop :=
  match o with
  | None => forall x, ~ child "w:u" e x
  | Some b => exists x v, first_child "w:u" e x /\ w_attr "w:val" x = Some v /\ (b = false <-> v = utf8 "none")
  end.
Definition valign_name (a : valign) : str :=
  utf8 (match a with VBaseline => "baseline" | VSubscript => "subscript" | VSuperscript => "superscript" end).
Definition aligns (e : welem) (o : option valign) : Prop :=
  match o with
  | None => no_value ["w:vertAlign"] "w:val" e \/ first_value ["w:vertAlign"] "w:val" e []
  | Some a => first_value ["w:vertAlign"] "w:val" e (valign_name a)
  end.
(** A colour has six characters. *)
Definition colours (e : welem) (o : option str) : Prop :=
  match o with
  | None => forall c, first_value ["w:color"] "w:val" e c -> List.length c <> 6%nat
  | Some c => first_value ["w:color"] "w:val" e c /\ List.length c = 6%nat
  end.
(** The properties a w:rPr element sets. *)
Definition run_props (e : welem) (p : rprops) : Prop :=
  toggles "w:b" e (rp_bold p) /\ toggles "w:i" e (rp_italics p) /\ underlines e (rp_underline p)
  /\ toggles "w:strike" e (rp_strike p) /\ aligns e (rp_valign p) /\ colours e (rp_color p).

(** ** Styles *)

(** [s] is the style of the type with that id: the first such style element. *)
Definition is_style (ty : string) (doc : welem) (id : str) (s : welem) : Prop :=
  exists A B, filter (fun s => match w_attr "w:type" s with Some t => seqb t (utf8 ty) | None => false end)
                (filter (fun e => seqb (w_tag e) (utf8 "w:style")) (w_kids doc)) = A ++ s :: B
    /\ w_attr "w:styleId" s = Some id /\ Forall (fun x => w_attr "w:styleId" x <> Some id) A.
(** The style and those it is based on, nearest first; the last is based on none. *)
Inductive chain (ty : string) (doc : welem) : str -> list welem -> Prop :=
| ch_last id s : is_style ty doc id s -> no_value ["w:basedOn"] "w:val" s -> chain ty doc id [s]
| ch_more id s b ss : is_style ty doc id s -> first_value ["w:basedOn"] "w:val" s b ->
    chain ty doc b ss -> chain ty doc id (s :: ss).
(** The style with id [x] is based on the one with id [y]. *)
Definition based_on (ty : string) (doc : welem) (x y : str) : Prop :=
  exists s, is_style ty doc x s /\ first_value ["w:basedOn"] "w:val" s y.
(** The properties a style sets itself. *)
Definition own_props (s : welem) (o : option rprops) : Prop :=
  match o with
  | Some p => exists e, first_child "w:rPr" s e /\ run_props e p
  | None => forall e, ~ child "w:rPr" s e
  end.
(** The first value that is set. *)
Fixpoint nearest {A} (f : rprops -> option A) (l : list (option rprops)) : option A :=
  match l with
  | [] => None
  | o :: r => match match o with Some p => f p | None => None end with Some a => Some a | None => nearest f r end
  end.
Definition prop_of {A} (f : rprops -> option A) (o : option rprops) : option A :=
  match o with Some p => f p | None => None end.
(** [o] has each property as the first in the list that sets it. *)
Definition combines (os : list (option rprops)) (o : option rprops) : Prop :=
  (o = None <-> Forall (fun x => x = None) os)
  /\ prop_of rp_bold o = nearest rp_bold os /\ prop_of rp_italics o = nearest rp_italics os
  /\ prop_of rp_underline o = nearest rp_underline os /\ prop_of rp_strike o = nearest rp_strike os
  /\ prop_of rp_valign o = nearest rp_valign os /\ prop_of rp_color o = nearest rp_color os.
(** The style [s] with id [id] is called [n]: by its id, or by one of its aliases, which are
    separated by commas (without aliases, the empty name). *)
Definition called (s : welem) (n id : str) : Prop :=
  w_attr "w:styleId" s = Some id
  /\ (n = id \/ exists al ps a, (first_value ["w:aliases"] "w:val" s al \/ (no_value ["w:aliases"] "w:val" s /\ al = []))
        /\ al = join [44] ps /\ ps <> [] /\ Forall (fun p => ~ In 44 p) ps /\ In a ps /\ trimmed a n).
(** The styles of a type. *)
Definition typed (ty : string) (doc : welem) : list welem :=
  filter (fun s => match w_attr "w:type" s with Some t => seqb t (utf8 ty) | None => false end)
    (filter (fun e => seqb (w_tag e) (utf8 "w:style")) (w_kids doc)).
(** The name [n] stands for the style with id [id]: the last one called so. *)
Definition names_style (ty : string) (doc : welem) (n id : str) : Prop :=
  exists s, last_with (fun s => exists i, called s n i) (typed ty doc) s /\ called s n id.
(** Every style of the type has an id. *)
Definition styles_have_ids (ty : string) (doc : welem) : Prop :=
  Forall (fun s => exists i, w_attr "w:styleId" s = Some i) (typed ty doc).
(** The format the name [n] of a style stands for. *)
Definition style_format (ty : string) (doc : welem) (n : str) (o : option rprops) : Prop :=
  styles_have_ids ty doc
  /\ exists id ss os, names_style ty doc n id /\ chain ty doc id ss /\ Forall2 own_props ss os /\ combines os o.
(** The format of a run: its own properties before those of its character style. *)
Inductive run_format (styles r : welem) : option rprops -> Prop :=
| rft_none : (forall e, ~ child "w:rPr" r e) -> run_format styles r None
| rft_own e p : first_child "w:rPr" r e -> run_props e p -> no_value ["w:rStyle"] "w:val" e -> run_format styles r (Some p)
| rft_style e p id q o : first_child "w:rPr" r e -> run_props e p -> first_value ["w:rStyle"] "w:val" e id ->
    style_format "character" styles id q -> combines [Some p; q] o -> run_format styles r o.

(** ** Header *)

(** "Revision" or "revision", white space and the word [w] begin after [a] in [h]. *)
Definition revision_at (h a w : str) : Prop :=
  exists R sp rest, h = a ++ R :: utf8 "evision" ++ sp ++ w ++ rest
    /\ (R = 82 \/ R = 114)
    /\ sp <> [] /\ Forall (fun c => isspace c = true) sp
    /\ w <> [] /\ Forall (fun c => isspace c = false) w
    /\ match rest with [] => True | c :: _ => isspace c = true end
    /\ ~ In 10 a.
