(** Independent vocabulary: style sheets.  What the characters of one mean (a part of
    https://www.w3.org/TR/css-syntax-3/ and https://www.w3.org/TR/selectors-3/), and the value a
    property gets for an element (https://www.w3.org/TR/css-cascade-3/). *)
From Coq Require Import NArith ZArith List Bool String.
From Verif Require Import PyStr Xml Docx.
Import ListNotations.
Local Open Scope string_scope.
Local Open Scope list_scope.
Local Open Scope N_scope.

(** ** Reading a style sheet *)

Definition css_space (c : N) : Prop := c = 32 \/ c = 9 \/ c = 10 \/ c = 12 \/ c = 13.
Definition css_spaces (s : str) : Prop := Forall css_space s.
Definition css_letter (c : N) : Prop := 97 <= c <= 122 \/ 65 <= c <= 90.
Definition css_digit (c : N) : Prop := 48 <= c <= 57.
Definition name_char (c : N) : Prop := css_letter c \/ css_digit c \/ c = 45 \/ c = 95.
Definition ident (s : str) : Prop := exists c r, s = c :: r /\ (css_letter c \/ c = 95) /\ Forall name_char r.

(** White space and comments. *)
Inductive filler : str -> Prop :=
| fi_nil : filler []
| fi_space c s : css_space c -> filler s -> filler (c :: s)
| fi_comment b s : (forall x y, b ++ [42] <> x ++ [42; 47] ++ y) -> filler s -> filler ([47; 42] ++ b ++ [42; 47] ++ s).

(** A simple selector: a tag, a class and a pseudo-class, each of which may be missing. *)
Record simple := mkSimple { s_tag : option str; s_class : option str; s_pseudo : option str }.
Definition selector_part (pre : str) (o : option str) (s : str) : Prop :=
  match o with Some n => ident n /\ s = pre ++ n | None => s = [] end.
Definition simple_text (s : str) (c : simple) : Prop :=
  exists a b p, s = a ++ b ++ p /\ s <> [] /\ selector_part [] (s_tag c) a /\ selector_part [46] (s_class c) b /\ selector_part [58] (s_pseudo c) p.
(** Simple selectors, each for a descendant of the one before. *)
Inductive selector_text : str -> list simple -> Prop :=
| st_one s c : simple_text s c -> selector_text s [c]
| st_more s c w r l : simple_text s c -> css_spaces w -> w <> [] -> selector_text r l -> selector_text (s ++ w ++ r) (c :: l).
Inductive selectors_text : str -> list (list simple) -> Prop :=
| ss_one w s w' l : css_spaces w -> css_spaces w' -> selector_text s l -> selectors_text (w ++ s ++ w') [l]
| ss_more w s w' l r ls : css_spaces w -> css_spaces w' -> selector_text s l -> selectors_text r ls ->
    selectors_text (w ++ s ++ w' ++ [44] ++ r) (l :: ls).
(** Values: words of letters, digits and some signs. *)
Definition value_char (c : N) : Prop := css_letter c \/ css_digit c \/ In c [35; 46; 45; 37].
Definition value_text (v : str) : Prop :=
  (exists c r, v = c :: r /\ value_char c) /\ (exists r c, v = r ++ [c] /\ value_char c) /\ Forall (fun c => value_char c \/ c = 32) v.
Inductive declarations : str -> list (str * str) -> Prop :=
| de_nil : declarations [] []
| de_space c s ds : css_space c -> declarations s ds -> declarations (c :: s) ds
| de_semi s ds : declarations s ds -> declarations (59 :: s) ds
| de_decl n w1 w2 v w3 s ds : ident n -> css_spaces w1 -> css_spaces w2 -> value_text v -> css_spaces w3 ->
    s = [] \/ (exists r, s = 59 :: r) -> declarations s ds ->
    declarations (n ++ w1 ++ [58] ++ w2 ++ v ++ w3 ++ s) ((n, v) :: ds).
(** A rule: its selectors and its declarations. *)
Definition rule : Type := list (list simple) * list (str * str).
Inductive sheet_text : str -> list rule -> Prop :=
| sh_end w : filler w -> sheet_text w []
| sh_rule w t l b ds s rs : filler w -> selectors_text t l -> declarations b ds -> sheet_text s rs ->
    sheet_text (w ++ t ++ [123] ++ b ++ [125] ++ s) ((l, ds) :: rs).

(** ** Which rules apply to an element *)

(** An element in a document: itself and the elements around it, innermost first, each with its
    place among the elements of its parent. *)
Definition place : Type := list (elem * nat).
Inductive place_in (root : elem) : place -> Prop :=
| pl_root : place_in root [(root, O)]
| pl_kid e i p j k t : place_in root ((e, i) :: p) -> nth_error (e_kids e) j = Some (k, t) -> place_in root ((k, j) :: (e, i) :: p).

(** [c] is one of the words of [v]. *)
Definition word_of (c v : str) : Prop :=
  exists a b, v = a ++ c ++ b /\ c <> [] /\ Forall (fun x => ~ css_space x) c
    /\ (a = [] \/ exists a' x, a = a' ++ [x] /\ css_space x) /\ (b = [] \/ exists x b', b = x :: b' /\ css_space x).
Definition simple_matches (c : simple) (p : place) : Prop :=
  match p with
  | [] => False
  | (e, i) :: up =>
      match s_tag c with Some t => e_tag e = t | None => True end
      /\ match s_class c with Some n => exists v, In (utf8 "class", v) (e_attrs e) /\ word_of n v | None => True end
      /\ match s_pseudo c with
         | Some q => q = utf8 "first-child" /\ i = O
             \/ q = utf8 "last-child" /\ (match up with (parent, _) :: _ => S i = List.length (e_kids parent) | [] => True end)
         | None => True end
  end.
(** A selector, innermost first. *)
Inductive matches : list simple -> place -> Prop :=
| ma_one c p : simple_matches c p -> matches [c] p
| ma_desc c l x a q : simple_matches c (x :: a ++ q) -> q <> [] -> matches l q -> matches (c :: l) (x :: a ++ q).

Definition count_some {A} (f : simple -> option A) (l : list simple) : nat :=
  List.length (filter (fun c => match f c with Some _ => true | None => false end) l).
(** Specificity: classes and pseudo-classes, then tags; then the position in the sheet. *)
Definition priority : Type := nat * nat * nat.
Definition outranks (p q : priority) : Prop :=
  let '(a, b, c) := p in let '(a', b', c') := q in
  (a' < a \/ a' = a /\ (b' < b \/ b' = b /\ c' <= c))%nat.
(** The last declaration of [prop] in [ds] gives it the value [v]. *)
Definition declares (ds : list (str * str)) (prop v : str) : Prop :=
  exists l r, ds = l ++ (prop, v) :: r /\ ~ In prop (map fst r).
Definition applies (sh : list rule) (p : place) (prop : str) (pr : priority) (v : str) : Prop :=
  exists n ls ds l, nth_error sh n = Some (ls, ds) /\ In l ls /\ matches (rev l) p /\ declares ds prop v
    /\ pr = (count_some s_class l + count_some s_pseudo l, count_some s_tag l, n)%nat.
(** The value the sheet gives to a property of an element. *)
Definition cascaded (sh : list rule) (p : place) (prop v : str) : Prop :=
  exists pr, applies sh p prop pr v /\ forall pr' v', applies sh p prop pr' v' -> outranks pr pr'.

(** ** What a document has *)

(** Letters and digits. *)
Definition css_word (s : str) : Prop := Forall (fun c => css_letter c \/ css_digit c) s.

(** The spans of an item of a list, and the levels of the lists nested in a list. *)
Inductive item_span : litem -> span -> Prop :=
| ip_item sps sp : In sp sps -> item_span (LItem sps) sp
| ip_sub l its i sp : In i its -> item_span i sp -> item_span (LSub l its) sp.
Inductive nested : list litem -> lvl -> Prop :=
| ns_here l sub its : In (LSub l sub) its -> nested its l
| ns_below l sub its l' : In (LSub l sub) its -> nested sub l' -> nested its l'.
(** The spans, the cells and the lists (not nested in a list) of a part of a document. *)
Inductive span_in : hunit -> span -> Prop :=
| si_par sps sp : In sp sps -> span_in (HPar sps) sp
| si_list l its i sp : In i its -> item_span i sp -> span_in (HList l its) sp
| si_table w id rows row t u sp : In row rows -> In t row -> In u (tc_elems t) -> span_in u sp -> span_in (HTable w id rows) sp.
Inductive cell_in : hunit -> tcell -> Prop :=
| ci_cell w id rows row t : In row rows -> In t row -> cell_in (HTable w id rows) t
| ci_table w id rows row t u t' : In row rows -> In t row -> In u (tc_elems t) -> cell_in u t' -> cell_in (HTable w id rows) t'.
Inductive list_in : hunit -> lvl -> list litem -> Prop :=
| li_list l its : list_in (HList l its) l its
| li_table w id rows row t u l its : In row rows -> In t row -> In u (tc_elems t) -> list_in u l its -> list_in (HTable w id rows) l its.

(** From a list to one nested in it: the levels, innermost first, and the items of the innermost. *)
Inductive list_path (l0 : lvl) (its0 : list litem) : list lvl -> list litem -> Prop :=
| lp_top : list_path l0 its0 [l0] its0
| lp_sub ls its l sub : list_path l0 its0 ls its -> In (LSub l sub) its -> list_path l0 its0 (l :: ls) sub.

Definition list_elem (e : elem) : Prop := e_tag e = utf8 "ol" \/ e_tag e = utf8 "ul".

(** The markers the items of a level get: numbers, letters or Roman numerals if it is numbered,
    discs and circles in turn if not. *)
Definition marker (l : lvl) (v : str) : Prop :=
  (exists r, v_txt l = 37 :: r)
    /\ ((v_fmt l = utf8 "lowerLetter" /\ v = utf8 "lower-alpha")
        \/ (v_fmt l = utf8 "lowerRoman" /\ v = utf8 "lower-roman")
        \/ (v_fmt l <> utf8 "lowerLetter" /\ v_fmt l <> utf8 "lowerRoman" /\ v = utf8 "decimal"))
  \/ (forall r, v_txt l <> 37 :: r)
    /\ ((Z.Even (v_ilvl l) /\ v = utf8 "disc") \/ (Z.Odd (v_ilvl l) /\ v = utf8 "circle")).

(** How a text with a format has to look: what the format sets, as CSS. *)
Inductive looks (p : rprops) : str -> str -> Prop :=
| lo_bold : rp_bold p = Some true -> looks p (utf8 "font-weight") (utf8 "bold")
| lo_not_bold : rp_bold p = Some false -> looks p (utf8 "font-weight") (utf8 "normal")
| lo_italic : rp_italics p = Some true -> looks p (utf8 "font-style") (utf8 "italic")
| lo_not_italic : rp_italics p = Some false -> looks p (utf8 "font-style") (utf8 "normal")
| lo_underline : rp_underline p <> None -> rp_strike p = None -> looks p (utf8 "text-decoration-line") (utf8 "underline")
| lo_strike : rp_underline p = None -> rp_strike p <> None -> looks p (utf8 "text-decoration-line") (utf8 "line-through")
| lo_both : rp_underline p <> None -> rp_strike p <> None -> looks p (utf8 "text-decoration-line") (utf8 "underline line-through")
| lo_base : rp_valign p = Some VBaseline -> looks p (utf8 "vertical-align") (utf8 "baseline")
| lo_sub : rp_valign p = Some VSubscript -> looks p (utf8 "vertical-align") (utf8 "sub")
| lo_super : rp_valign p = Some VSuperscript -> looks p (utf8 "vertical-align") (utf8 "super")
| lo_color c : rp_color p = Some c -> looks p (utf8 "color") (35 :: c).

(** The colours of a docx document that are used (those of six characters) are letters and
    digits. *)
Definition has_node (r x : welem) : Prop := x = r \/ In x (below r).
Definition plain_colours (d : docx) : Prop :=
  (forall x v, has_node (dx_body d) x \/ has_node (dx_styles d) x -> w_tag x = utf8 "w:color" -> w_attr "w:val" x = Some v ->
     List.length v = 6%nat -> css_word v)
  /\ (forall x v, has_node (dx_body d) x -> w_tag x = utf8 "w:shd" -> w_attr "w:fill" x = Some v ->
        List.length v = 6%nat -> css_word v).

(** How many of the lists have the tag. *)
Fixpoint lists_with (t : str) (ls : list lvl) : nat :=
  match ls with [] => O | l :: r => if seqb (lvl_tag l) t then S (lists_with t r) else lists_with t r end.
(** Among the levels with the tag [t] and a number below [k]: the one with the greatest number,
    the last of these if there are several. *)
Definition deepest (lv : list lvl) (t : str) (k : nat) (l : lvl) : Prop :=
  exists j, nth_error lv j = Some l /\ lvl_tag l = t /\ (Z.to_nat (v_ilvl l) < k)%nat
    /\ forall j' l', nth_error lv j' = Some l' -> lvl_tag l' = t -> (Z.to_nat (v_ilvl l') < k)%nat ->
         (Z.to_nat (v_ilvl l') < Z.to_nat (v_ilvl l) \/ Z.to_nat (v_ilvl l') = Z.to_nat (v_ilvl l) /\ j' <= j)%nat.
(** A list whose level has the number [k], and the lists nested in it the following ones. *)
Inductive regular : Z -> lvl -> list litem -> Prop :=
| rg k l its : v_ilvl l = k -> (forall l' sub, In (LSub l' sub) its -> regular (k + 1) l' sub) -> regular k l its.

(** ** In document order *)

(** The elements of a document, each with the elements around it. *)
Fixpoint places_from (e : elem) (i : nat) (up : place) : list place :=
  match e with
  | Elem _ _ _ ks => ((e, i) :: up) :: (fix kids (ks : list kid) (j : nat) : list place :=
      match ks with [] => [] | k :: r => places_from (fst k) j ((e, i) :: up) ++ kids r (S j) end) ks O
  end.
Definition places (root : elem) : list place := places_from root O [].
(** Those that are for a text, a cell or a list. *)
Definition part_tag (t : str) : bool := existsb (seqb t) (map utf8 ["span"; "td"; "th"; "ol"; "ul"]).
Definition part_place (p : place) : bool := match p with (e, _) :: _ => part_tag (e_tag e) | [] => false end.
(** The texts, cells and lists of a part of a document.  A cell stands at its origin only. *)
Inductive part := PSpan (sp : span) | PCell (t : tcell) | PList (l : lvl) (its : list litem).
Fixpoint item_parts (i : litem) : list part :=
  match i with
  | LItem sps => map PSpan sps
  | LSub l its => PList l its :: flat_map item_parts its
  end.
Fixpoint unit_parts (u : hunit) : list part :=
  match u with
  | HPar sps => map PSpan sps
  | HList l its => PList l its :: flat_map item_parts its
  | HTable _ _ rows =>
      (fix rows_parts (y : Z) (rows : list (list tcell)) : list part :=
         match rows with
         | [] => []
         | row :: r =>
             (fix cells_parts (x : Z) (ts : list tcell) : list part :=
                match ts with
                | [] => []
                | t :: ts => (match t with TC _ us _ o _ => if (fst o =? x)%Z && (snd o =? y)%Z then PCell t :: flat_map unit_parts us else [] end)
                             ++ cells_parts (x + 1)%Z ts
                end) 0%Z row ++ rows_parts (y + 1)%Z r
         end) 0%Z rows
  end.
(** An element that is for a part and looks as it has to, under the style sheet [sh]. *)
Definition part_looks (sh : list rule) (p : place) (x : part) : Prop :=
  exists e i up, p = (e, i) :: up /\
    match x with
    | PSpan sp => e_tag e = utf8 "span" /\ e_text e = sp_text sp
        /\ forall k v, cascaded sh p k v <-> exists f, sp_style sp = Some f /\ looks f k v
    | PCell t => e_tag e = tc_tag t
        /\ forall v, cascaded sh p (utf8 "background-color") v <-> exists f, tc_fill t = Some f /\ v = 35 :: f
    | PList l its => e_tag e = lvl_tag l
    end.
