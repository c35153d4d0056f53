(** src/spex/htmlspec: reading a docx document.
    Not modelled: the zip container, XML parsing, namespaces (names are written with the usual
    prefixes), comments and processing instructions. *)
From Coq Require Import NArith ZArith List Bool String.
From Verif Require Import PyStr Regex Regexes.
Import ListNotations.
Local Open Scope string_scope.
Local Open Scope list_scope.
Local Open Scope N_scope.

(** ** Elements and queries *)

(** An lxml element: its identity (two elements of a document are the same object if and only
    if they have the same number), tag, attributes, text before the first child ([None] if
    there is none) and children. *)
Inductive welem := W (id : N) (tag : str) (attrs : list (str * str)) (text : option str) (kids : list welem).

Definition w_id (e : welem) := let 'W i _ _ _ _ := e in i.
Definition w_tag (e : welem) := let 'W _ t _ _ _ := e in t.
Definition w_attrs (e : welem) := let 'W _ _ a _ _ := e in a.
Definition w_text (e : welem) := let 'W _ _ _ x _ := e in x.
Definition w_kids (e : welem) := let 'W _ _ _ _ k := e in k.

(** Number of elements of a tree (measure for recursion). *)
Fixpoint wsize (e : welem) : nat :=
  match e with W _ _ _ _ ks => S (list_sum (map wsize ks)) end.

(** The elements below [e] in document order; the query .//* *)
Fixpoint below (e : welem) : list welem :=
  match e with W _ _ _ _ ks => flat_map (fun k => k :: below k) ks end.

Definition is_tag (t : string) (e : welem) : bool := seqb (w_tag e) (utf8 t).
(** xml.py:51-71, Xpath.elems with ./t and .//t *)
Definition w_children (t : string) (e : welem) : list welem := filter (is_tag t) (w_kids e).
Definition w_all (t : string) (e : welem) : list welem := filter (is_tag t) (below e).
(** the query ./t1/t2/... *)
Fixpoint w_path (ts : list string) (e : welem) : list welem :=
  match ts with
  | [] => [e]
  | t :: r => flat_map (w_path r) (w_children t e)
  end.
Definition w_attr (a : string) (e : welem) : option str :=
  match find (fun p => seqb (fst p) (utf8 a)) (w_attrs e) with Some p => Some (snd p) | None => None end.

(** The exceptions of this stage. *)
Inductive derr :=
| DAssert        (* AssertionError *)
| DIndex         (* IndexError *)
| DValue         (* ValueError *)
| DKey           (* KeyError *)
| DRuntime       (* RuntimeError *)
| DNotFound      (* XPathElementNotFoundException *)
| DRecursion     (* RecursionError *)
| DDebugger.     (* the debugger was entered (and left, without a terminal, by BdbQuit) *)
Inductive dres (A : Type) := DOk (a : A) | DErr (e : derr) | DFuel.
Arguments DOk {A}. Arguments DErr {A}. Arguments DFuel {A}.
Definition dbind {A B} (r : dres A) (f : A -> dres B) : dres B :=
  match r with DOk a => f a | DErr e => DErr e | DFuel => DFuel end.
Notation "'dlet' p <- r ; b" := (dbind r (fun p => b)) (at level 100, p pattern, r at level 99, b at level 200).

(** [list(f(x) for x in l)] where [f] may raise *)
Fixpoint dmap {A B} (f : A -> dres B) (l : list A) : dres (list B) :=
  match l with
  | [] => DOk []
  | a :: r => dlet b <- f a; dlet bs <- dmap f r; DOk (b :: bs)
  end.

Definition first {A} (l : list A) : option A := match l with [] => None | a :: _ => Some a end.
(** xml.py:73-88 elem_first, elem_first_req; 107-126 attr_first, attr_first_req *)
Definition elem_first (ts : list string) (e : welem) : option welem := first (w_path ts e).
Definition elem_first_req (ts : list string) (e : welem) : dres welem :=
  match elem_first ts e with Some x => DOk x | None => DErr DNotFound end.
Definition attr_first (ts : list string) (a : string) (e : welem) : option str :=
  first (flat_map (fun x => match w_attr a x with Some v => [v] | None => [] end) (w_path ts e)).
Definition attr_first_req (ts : list string) (a : string) (e : welem) : dres str :=
  match attr_first ts a e with Some x => DOk x | None => DErr DRuntime end.
(** [int(s)] *)
Definition d_int (s : str) : dres Z := match py_int s with Some z => DOk z | None => DErr DValue end.

(** ** The stream (htmlspec/stream.py) *)

(** stream.py:16-19: the current element ([None]: the end marker) and what the iterator has left *)
Record stream (A : Type) := mkStream { s_cur : option A; s_iter : list A }.
Arguments mkStream {A}. Arguments s_cur {A}. Arguments s_iter {A}.
Definition s_next {A} (l : list A) : option A * list A :=
  match l with [] => (None, []) | a :: r => (Some a, r) end.
Definition s_open {A} (l : list A) : stream A := let (c, r) := s_next l in mkStream c r.
(** stream.py:21-22 *)
Definition s_end {A} (s : stream A) : bool := match s_cur s with None => true | Some _ => false end.
(** stream.py:24-27; [None]: StopIteration *)
Definition s_peek {A} (s : stream A) : option A := s_cur s.
(** stream.py:29-34 *)
Definition s_consume {A} (s : stream A) : option (A * stream A) :=
  match s_cur s with
  | None => None
  | Some a => let (c, r) := s_next (s_iter s) in Some (a, mkStream c r)
  end.
(** In the rest of this file a stream is the list of the elements it has left, as C52 allows. *)

(** ** The header (docx/header.py) *)

(** header.py:12, _rgx_revision   .*[Rr]evision\s+(?P<rev>\S+).*  *)
Definition REVISION_REGEX : re :=
  rseq [ RStar AnyNL; RChr (Cls [CI 82; CI 114]); rlit (utf8 "evision"); RPlus (Cls [CS]);
         RGrp G_rev (RPlus (NCls [CS])); RStar AnyNL ].
(** header.py:19-21 *)
Definition header_text (doc : welem) : str :=
  flat_map (fun e => match w_text e with Some x => x | None => [] end) (w_all "w:t" doc).
(** header.py:22-23 *)
Definition header_revision (h : str) : option str :=
  match re_match REVISION_REGEX h with Some g => group G_rev g | None => None end.
(** header.py:24 *)
Definition header_title (h : str) : str := strip (fst (split1 44 h)).

(** ** Run properties (docx/runproperties.py) *)

Inductive valign := VBaseline | VSubscript | VSuperscript.
(** runproperties.py:32-69.  Left out: the size, which is [None] in every object the program
    makes (line 234). *)
Record rprops := mkRp {
  rp_bold : option bool; rp_italics : option bool; rp_underline : option bool;
  rp_strike : option bool; rp_valign : option valign; rp_color : option str }.

Definition or_else {A} (a b : option A) : option A := match a with Some _ => a | None => b end.
(** runproperties.py:137-164, merge with an object *)
Definition rp_merge (self other : rprops) : rprops :=
  mkRp (or_else (rp_bold other) (rp_bold self)) (or_else (rp_italics other) (rp_italics self))
    (or_else (rp_underline other) (rp_underline self)) (or_else (rp_strike other) (rp_strike self))
    (or_else (rp_valign other) (rp_valign self)) (or_else (rp_color other) (rp_color self)).
(** runproperties.py:141-142, merge(None) *)
Definition rp_merge_opt (self : rprops) (other : option rprops) : rprops :=
  match other with None => self | Some o => rp_merge self o end.

(** runproperties.py:166-199, __compute_css_attrs: a dict, in insertion order *)
Definition css_attrs (p : rprops) : list (str * str) :=
  match rp_bold p with
  | Some b => [(utf8 "font-weight", utf8 (if b then "bold" else "normal"))] | None => [] end
  ++ match rp_italics p with
     | Some b => [(utf8 "font-style", utf8 (if b then "italic" else "normal"))] | None => [] end
  ++ match match rp_underline p with Some _ => [utf8 "underline"] | None => [] end
           ++ match rp_strike p with Some _ => [utf8 "line-through"] | None => [] end with
     | [] => []
     | l => [(utf8 "text-decoration-line", join (utf8 " ") l)]
     end
  ++ match rp_valign p with
     | Some VBaseline => [(utf8 "vertical-align", utf8 "baseline")]
     | Some VSubscript => [(utf8 "vertical-align", utf8 "sub")]
     | Some VSuperscript => [(utf8 "vertical-align", utf8 "super")]
     | None => [] end
  ++ match rp_color p with Some c => [(utf8 "color", utf8 "#" ++ c)] | None => [] end.

(** runproperties.py:206-217, bprop_val *)
Definition bprop_val (e : welem) (t : string) : option bool :=
  match elem_first [t] e with
  | None => None
  | Some r => Some (match attr_first [] "w:val" r with
                    | None => true
                    | Some v => negb (seqb (strip v) (utf8 "0")) end)
  end.
(** runproperties.py:219-224, u_val *)
Definition u_val (e : welem) : dres (option bool) :=
  match elem_first ["w:u"] e with
  | None => DOk None
  | Some r => dlet v <- attr_first_req [] "w:val" r; DOk (Some (negb (seqb v (utf8 "none"))))
  end.
(** runproperties.py:53-61: [VertAlign[v]] for a text that is not empty *)
Definition valign_of (v : option str) : dres (option valign) :=
  match v with
  | None | Some [] => DOk None
  | Some s =>
      if seqb s (utf8 "baseline") then DOk (Some VBaseline)
      else if seqb s (utf8 "subscript") then DOk (Some VSubscript)
      else if seqb s (utf8 "superscript") then DOk (Some VSuperscript)
      else DErr DKey
  end.
(** runproperties.py:201-237 from_rpr_elem, 64-68 *)
Definition from_rpr (e : welem) : dres rprops :=
  dlet u <- u_val e;
  dlet va <- valign_of (attr_first ["w:vertAlign"] "w:val" e);
  DOk (mkRp (bprop_val e "w:b") (bprop_val e "w:i") u (bprop_val e "w:strike") va
        (match attr_first ["w:color"] "w:val" e with
         | Some c => if (List.length c =? 6)%nat then Some c else None
         | None => None end)).
Definition from_rpr_elem (e : option welem) : dres (option rprops) :=
  match e with None => DOk None | Some e => dlet p <- from_rpr e; DOk (Some p) end.

(** ** Styles (docx/styles.py) *)

(** styles.py:29,44-47: the style elements of a type *)
Definition styles_of (ty : string) (doc : welem) : list welem :=
  filter (fun s => match w_attr "w:type" s with Some t => seqb t (utf8 ty) | None => false end)
    (w_children "w:style" doc).
(** dict assignment *)
Fixpoint d_set {V} (k : str) (v : V) (d : list (str * V)) : list (str * V) :=
  match d with
  | [] => [(k, v)]
  | (k', v') :: r => if seqb k' k then (k, v) :: r else (k', v') :: d_set k v r
  end.
Definition d_get {V} (k : str) (d : list (str * V)) : option V :=
  match find (fun p => seqb (fst p) k) d with Some p => Some (snd p) | None => None end.
(** styles.py:26-37, __init_alias_dct *)
Fixpoint alias_loop (ss : list welem) (d : list (str * str)) : dres (list (str * str)) :=
  match ss with
  | [] => DOk d
  | s :: r =>
      dlet name <- attr_first_req [] "w:styleId" s;
      let aliases := match attr_first ["w:aliases"] "w:val" s with Some a => a | None => [] end in
      alias_loop r (fold_left (fun d a => d_set (strip a) name d) (split_char 44 aliases) (d_set name name d))
  end.
Definition alias_dct (ty : string) (doc : welem) : dres (list (str * str)) := alias_loop (styles_of ty doc) [].

(** styles.py:39-55, __get_style.  The cache changes nothing, as the function is pure.
    Simplifications: a style id has no apostrophe (it is pasted into an XPath query), and
    Python's recursion limit is only met by chains that do not end; [fuel] running out stands
    for those (C51 shows it does for as much fuel as there are styles, and one more). *)
Fixpoint style_chain (fuel : nat) (ty : string) (doc : welem) (id : str) : dres (option rprops) :=
  match fuel with
  | O => DErr DRecursion
  | S f =>
      match find (fun s => match w_attr "w:styleId" s with Some i => seqb i id | None => false end) (styles_of ty doc) with
      | None => DErr DNotFound
      | Some s =>
          dlet rpr <- from_rpr_elem (elem_first ["w:rPr"] s);
          match attr_first ["w:basedOn"] "w:val" s with
          | None => DOk rpr
          | Some b =>
              dlet base <- style_chain f ty doc b;
              DOk (match base with Some p => Some (rp_merge_opt p rpr) | None => rpr end)
          end
      end
  end.
Definition style_fuel (ty : string) (doc : welem) : nat := S (List.length (styles_of ty doc)).
(** styles.py:57-59, get_style *)
Definition get_style (ty : string) (doc : welem) (id : str) : dres (option rprops) :=
  dlet d <- alias_dct ty doc;
  match d_get id d with
  | None => DErr DKey
  | Some name => style_chain (style_fuel ty doc) ty doc name
  end.
(** styles.py:62-67: the aliases of both kinds are collected when the document is opened *)
Definition styles_ok (doc : welem) : dres unit :=
  dlet _ <- alias_dct "paragraph" doc; dlet _ <- alias_dct "character" doc; DOk tt.

(** document.py:76-86, extract_r_rpr, for a w:r element *)
Definition extract_r_rpr (styles : welem) (r : welem) : dres (option rprops) :=
  match elem_first ["w:rPr"] r with
  | None => DOk None
  | Some e =>
      dlet p <- from_rpr e;
      match attr_first ["w:rStyle"] "w:val" e with
      | None => DOk (Some p)
      | Some id =>
          dlet st <- get_style "character" styles id;
          DOk (Some (match st with None => p | Some q => rp_merge q p end))
      end
  end.

(** ** Numbering (docx/numbering.py) *)

(** numbering.py:13-18 *)
Record lvl := mkLvl { v_abs : Z; v_ilvl : Z; v_fmt : str; v_txt : str }.
(** numbering.py:91-94, AbstractNum; 100-102 NumberingDocument *)
Record numbering := mkNum { n_abs : list (Z * list lvl); n_nums : list (Z * Z) }.

Fixpoint z_set {V} (k : Z) (v : V) (d : list (Z * V)) : list (Z * V) :=
  match d with
  | [] => [(k, v)]
  | (k', v') :: r => if (k' =? k)%Z then (k, v) :: r else (k', v') :: z_set k v r
  end.
Definition z_get {V} (k : Z) (d : list (Z * V)) : option V :=
  match find (fun p => (fst p =? k)%Z) d with Some p => Some (snd p) | None => None end.

(** numbering.py:128-139 *)
Definition parse_lvl (num : Z) (e : welem) : dres lvl :=
  dlet i <- attr_first_req [] "w:ilvl" e; dlet i <- d_int i;
  dlet f <- attr_first_req ["w:numFmt"] "w:val" e;
  dlet t <- attr_first_req ["w:lvlText"] "w:val" e;
  DOk (mkLvl num i f t).
(** numbering.py:123-141 *)
Fixpoint parse_abs (es : list welem) (d : list (Z * list lvl)) : dres (list (Z * list lvl)) :=
  match es with
  | [] => DOk d
  | e :: r =>
      dlet n <- attr_first_req [] "w:abstractNumId" e; dlet n <- d_int n;
      dlet ls <- dmap (parse_lvl n) (w_children "w:lvl" e);
      parse_abs r (z_set n ls d)
  end.
(** numbering.py:143-151; coerce(None) raises ValueError (83-84) *)
Fixpoint parse_nums (es : list welem) (d : list (Z * Z)) : dres (list (Z * Z)) :=
  match es with
  | [] => DOk d
  | e :: r =>
      dlet n <- match attr_first [] "w:numId" e with Some s => d_int s | None => DErr DValue end;
      dlet a <- match attr_first ["w:abstractNumId"] "w:val" e with Some s => d_int s | None => DErr DValue end;
      parse_nums r (z_set n a d)
  end.
(** numbering.py:122-151, __parse_absnum *)
Definition parse_numbering (doc : welem) : dres numbering :=
  dlet a <- parse_abs (w_children "w:abstractNum" doc) [];
  dlet n <- parse_nums (w_children "w:num" doc) [];
  DOk (mkNum a n).
(** numbering.py:109-111, has_num_id *)
Definition has_num_id (n : numbering) (id : str) : dres bool :=
  dlet z <- d_int id; DOk (match z_get z (n_nums n) with Some _ => true | None => false end).
(** numbering.py:113-116, get_style: number 0 enters the debugger *)
Definition num_style (n : numbering) (id : Z) : dres (Z * list lvl) :=
  if (id =? 0)%Z then DErr DDebugger
  else match z_get id (n_nums n) with
       | None => DErr DKey
       | Some a => match z_get a (n_abs n) with None => DErr DKey | Some ls => DOk (a, ls) end
       end.
(** [l[i]] *)
Definition py_index {A} (l : list A) (i : Z) : dres A :=
  let i' := if (i <? 0)%Z then (i + Z.of_nat (List.length l))%Z else i in
  if (i' <? 0)%Z then DErr DIndex
  else match nth_error l (Z.to_nat i') with Some a => DOk a | None => DErr DIndex end.
(** numbering.py:96-97, get_ilvl: by position *)
Definition get_ilvl (ls : list lvl) (i : Z) : dres lvl := py_index ls i.
(** numbering.py:33-43 *)
Definition is_ordered (l : lvl) : bool := startswith (utf8 "%") (v_txt l).
Definition lvl_tag (l : lvl) : str := utf8 (if is_ordered l then "ol" else "ul").
Definition lvl_class (l : lvl) : str := lvl_tag l ++ str_of_Z (v_abs l).

(** ** The grid of a table (docx/tablewrap.py) *)

Inductive vmerge := VNone | VMerged | VRestart.
(** tablewrap.py:45-47, tc_grid_span *)
Definition tc_grid_span (tc : welem) : dres Z :=
  match attr_first ["w:tcPr"; "w:gridSpan"] "w:val" tc with Some s => d_int s | None => DOk 1%Z end.
(** tablewrap.py:49-59, cell_vertical_merge *)
Definition cell_vertical_merge (tc : welem) : dres vmerge :=
  match elem_first ["w:tcPr"; "w:vMerge"] tc with
  | None => DOk VNone
  | Some m =>
      match attr_first [] "w:val" m with
      | None | Some [] => DOk VMerged
      | Some v => if seqb v (utf8 "restart") then DOk VRestart else DErr DAssert
      end
  end.

(** tablewrap.py:20-34, GridElement *)
Record gcell := mkG { g_cell : welem; g_top : Z; g_bottom : Z; g_left : Z; g_right : Z }.
Definition g_colspan (g : gcell) : Z := (g_right g - g_left g + 1)%Z.
Definition g_rowspan (g : gcell) : Z := (g_bottom g - g_top g + 1)%Z.

(** The grid elements are shared objects whose bottom changes: [h] has all made so far, and a
    matrix refers to them by their number. *)
Definition heap := list gcell.
Definition set_bottom (b : Z) (g : gcell) : gcell := mkG (g_cell g) (g_top g) b (g_left g) (g_right g).
Fixpoint update {A} (n : nat) (f : A -> A) (l : list A) : list A :=
  match l, n with
  | [], _ => []
  | a :: r, O => f a :: r
  | a :: r, S n => a :: update n f r
  end.

(** tablewrap.py:62-92, the cells of one row; [above] is [matrix[-1]] ([None]: no rows yet). *)
Fixpoint grid_row (row : Z) (above : option (list nat)) (tcs : list welem) (col : Z) (h : heap) (acc : list nat)
  : dres (heap * list nat) :=
  match tcs with
  | [] => DOk (h, acc)
  | tc :: r =>
      dlet span <- tc_grid_span tc;
      dlet vm <- cell_vertical_merge tc;
      dlet (h', i) <-
        match vm with
        | VMerged =>
            match above with
            | None => DErr DIndex
            | Some a =>
                dlet i <- py_index a col;
                match nth_error h i with
                | None => DErr DIndex   (* does not occur *)
                | Some g =>
                    if (span =? g_colspan g)%Z then DOk (update i (set_bottom row) h, i) else DErr DAssert
                end
            end
        | _ => DOk (h ++ [mkG tc row row col (col + span - 1)%Z], List.length h)
        end;
      grid_row row above r (col + span)%Z h' (acc ++ repeat i (Z.to_nat span))
  end.
(** tablewrap.py:61-93 *)
Fixpoint grid_rows (row : Z) (trs : list welem) (h : heap) (m : list (list nat)) : dres (heap * list (list nat)) :=
  match trs with
  | [] => DOk (h, m)
  | tr :: r =>
      dlet (h', cells) <- grid_row row (match rev m with [] => None | a :: _ => Some a end) (w_children "w:tc" tr) 0 h [];
      grid_rows (row + 1)%Z r h' (m ++ [cells])
  end.
(** tablewrap.py:44-93, TableWrap.grid: the matrix of grid elements (as they are in the end),
    each with its number *)
Definition grid (tbl : welem) : dres (list (list (nat * gcell))) :=
  dlet (h, m) <- grid_rows 0 (w_children "w:tr" tbl) [] [];
  DOk (map (flat_map (fun i => match nth_error h i with Some g => [(i, g)] | None => [] end)) m).

(** ** The parser (htmlspec/parser.py) *)

(** parser.py:29-32 *)
Record span := mkSpan { sp_style : option rprops; sp_text : str }.
(** parser.py:40-52: an element of a list: an item or a nested list *)
Inductive litem := LItem (spans : list span) | LSub (props : lvl) (items : list litem).
(** parser.py:35-76.  A table carries the w:tbl element's number, for reference only. *)
Inductive hunit :=
| HPar (spans : list span)
| HList (props : lvl) (items : list litem)
| HTable (wid : N) (id : option str) (rows : list (list tcell))
with tcell :=
| TC (tag : str) (elems : list hunit) (span : Z * Z) (origin : Z * Z) (fill : option str).
Definition tc_tag (c : tcell) := let 'TC t _ _ _ _ := c in t.
Definition tc_elems (c : tcell) := let 'TC _ e _ _ _ := c in e.
Definition tc_span (c : tcell) := let 'TC _ _ s _ _ := c in s.
Definition tc_origin (c : tcell) := let 'TC _ _ _ o _ := c in o.
Definition tc_fill (c : tcell) := let 'TC _ _ _ _ f := c in f.

(** parser.py:79-99, find_id *)
Definition spans_text (l : list span) : str := flat_map sp_text l.
Definition find_id (rows : list (list tcell)) : option str :=
  match rows with
  | (c :: _) :: _ =>
      if seqb (tc_tag c) (utf8 "td") then
        match tc_elems c with
        | HPar spans :: _ =>
            match spans_text spans with
            | [] => None
            | t => match re_match TABLE_ID_REGEX t with Some g => group G_id g | None => None end
            end
        | _ => None
        end
      else None
  | _ => None
  end.

(** A docx document: the document, the numbering (if there is one) and the styles. *)
Record docx := mkDocx { dx_body : welem; dx_num : option numbering; dx_styles : welem }.

Section Parser.
Variable d : docx.

(** parser.py:206-217, _select_runs *)
Fixpoint select_runs (ks : list welem) : dres (list welem) :=
  match ks with
  | [] => DOk []
  | k :: r =>
      if is_tag "w:r" k then dlet l <- select_runs r; DOk (k :: l)
      else if is_tag "w:hyperlink" k || is_tag "w:fldSimple" k then
        dlet x <- elem_first_req ["w:r"] k; dlet l <- select_runs r; DOk (x :: l)
      else select_runs r
  end.
(** parser.py:219-225, _parse_spans: the spans of one run *)
Definition run_spans (r : welem) : dres (list span) :=
  match elem_first ["w:t"] r with
  | None => DOk []
  | Some t =>
      match w_text t with
      | None => DOk []
      | Some x => dlet st <- extract_r_rpr (dx_styles d) r; DOk [mkSpan st x]
      end
  end.
Definition parse_spans (p : welem) : dres (list span) :=
  dlet rs <- select_runs (w_kids p); dlet ls <- dmap run_spans rs; DOk (List.concat ls).

(** The numbering attributes of a paragraph. *)
Definition p_num (p : welem) : option str := attr_first ["w:pPr"; "w:numPr"; "w:numId"] "w:val" p.
(** parser.py:134-138, __p_is_list_paragraph *)
Definition is_list_p (p : welem) : dres bool :=
  match p_num p, dx_num d with
  | Some id, Some n => has_num_id n id
  | _, _ => DOk false
  end.
(** parser.py:144,179: int(attr_first_req(...numId...)) *)
Definition p_num_id (p : welem) : dres Z :=
  dlet s <- attr_first_req ["w:pPr"; "w:numPr"; "w:numId"] "w:val" p; d_int s.
(** parser.py:151,184-186 *)
Definition p_ilvl (p : welem) : dres Z :=
  dlet s <- attr_first_req ["w:pPr"; "w:numPr"; "w:ilvl"] "w:val" p; d_int s.
(** parser.py:146-149 *)
Definition p_style (z : Z) : dres (Z * list lvl) :=
  match dx_num d with None => DErr DAssert | Some n => num_style n z end.

(** parser.py:140-157, _parse_list up to its elements: the level's properties, the abstract
    numbering and the level *)
Definition list_head (p : welem) : dres (lvl * Z * Z) :=
  if negb (is_tag "w:p" p) then DErr DAssert else
  dlet n <- p_num_id p;
  dlet (a, ls) <- p_style n;
  dlet i <- p_ilvl p;
  dlet l <- get_ilvl ls i;
  DOk (l, a, i).

(** parser.py:159-196, _parse_list_elems: the elements and the rest of the stream *)
Fixpoint list_elems (fuel : nat) (st : list welem) (abs ilvl : Z) : dres (list litem * list welem) :=
  match fuel with
  | O => DFuel
  | S f =>
      match st with
      | [] => DOk ([], [])
      | p :: rest =>
          if negb (is_tag "w:p" p) then DOk ([], st) else
          dlet lp <- is_list_p p;
          if negb lp then DOk ([], st) else
          dlet n <- p_num_id p;
          dlet (a, _) <- p_style n;
          if negb (a =? abs)%Z then DOk ([], st) else
          dlet i <- p_ilvl p;
          if (ilvl <? i)%Z then
            dlet (l, a', i') <- list_head p;
            dlet (sub, st') <- list_elems f st a' i';
            dlet (more, st'') <- list_elems f st' abs ilvl;
            DOk (LSub l sub :: more, st'')
          else if (i <? ilvl)%Z then DOk ([], st)
          else
            dlet spans <- parse_spans p;
            dlet (more, st') <- list_elems f rest abs ilvl;
            DOk (LItem spans :: more, st')
      end
  end.
Definition list_fuel (st : list welem) : nat := S (S (List.length st + List.length st)).
(** parser.py:140-157, _parse_list *)
Definition parse_list (st : list welem) : dres (hunit * list welem) :=
  match st with
  | [] => DErr DRuntime   (* does not occur: the stream is not at its end *)
  | p :: _ =>
      dlet (l, a, i) <- list_head p;
      dlet (items, st') <- list_elems (list_fuel st) st a i;
      DOk (HList l items, st')
  end.

(** parser.py:198-204, _parse_paragraph *)
Definition parse_paragraph (p : welem) : dres (option hunit) :=
  dlet s <- parse_spans p; DOk (match s with [] => None | _ => Some (HPar s) end).

(** parser.py:250-269: fill colour and tag of a cell *)
Definition cell_fill (tc : welem) : option str :=
  match attr_first ["w:tcPr"; "w:shd"] "w:fill" tc with
  | Some f => if (List.length f =? 6)%nat && negb (seqb (lower f) (utf8 "ffffff")) then Some f else None
  | None => None
  end.
Definition cell_tag (tc : welem) : str :=
  match cell_fill tc with
  | Some f =>
      if seqb (firstn 2 f) (firstn 2 (skipn 2 f)) && seqb (firstn 2 (skipn 2 f)) (firstn 2 (skipn 4 f))
      then utf8 "th" else utf8 "td"
  | None => utf8 "td"
  end.

(** What parsing returns besides its result: the tables seen. *)
Definition seen := list N.
Definition mem_id (i : N) (s : seen) : bool := existsb (N.eqb i) s.

(** parser.py:241-282, one row and all rows of the grid; [pa] parses the contents of a cell.
    The cache (240, 244-248) never has an entry for the position at hand. *)
Fixpoint parse_row (pa : list welem -> seen -> dres (list hunit * seen)) (row : list (nat * gcell)) (s : seen)
  : dres (list tcell * seen) :=
  match row with
  | [] => DOk ([], s)
  | (_, g) :: r =>
      dlet (elems, s') <- pa (w_kids (g_cell g)) s;
      dlet (cells, s'') <- parse_row pa r s';
      DOk (TC (cell_tag (g_cell g)) elems (g_colspan g, g_rowspan g) (g_left g, g_top g) (cell_fill (g_cell g)) :: cells, s'')
  end.
Fixpoint parse_rows (pa : list welem -> seen -> dres (list hunit * seen)) (rows : list (list (nat * gcell))) (s : seen)
  : dres (list (list tcell) * seen) :=
  match rows with
  | [] => DOk ([], s)
  | row :: r =>
      dlet (cells, s') <- parse_row pa row s;
      dlet (rest, s'') <- parse_rows pa r s';
      DOk (cells :: rest, s'')
  end.
(** parser.py:227-284, _parse_table, for a w:tbl element *)
Definition parse_table (pa : list welem -> seen -> dres (list hunit * seen)) (tbl : welem) (s : seen)
  : dres (option hunit * seen) :=
  if mem_id (w_id tbl) s then DOk (None, s)
  else
    dlet m <- grid tbl;
    dlet (rows, s') <- parse_rows pa m (w_id tbl :: s);
    DOk (Some (HTable (w_id tbl) (find_id rows) rows), s').

(** parser.py:115-132, _parse_any, on the elements left in the stream *)
Fixpoint parse_any (fuel : nat) (st : list welem) (s : seen) : dres (list hunit * seen) :=
  match fuel with
  | O => DFuel
  | S f =>
      match st with
      | [] => DOk ([], s)
      | cur :: rest =>
          if is_tag "w:tbl" cur then
            dlet (t, s') <- parse_table (parse_any f) cur s;
            dlet (us, s'') <- parse_any f rest s';
            DOk (match t with Some u => u :: us | None => us end, s'')
          else if is_tag "w:p" cur then
            dlet lp <- is_list_p cur;
            if lp then
              dlet (u, st') <- parse_list st;
              dlet (us, s') <- parse_any f st' s;
              DOk (u :: us, s')
            else
              dlet u <- parse_paragraph cur;
              dlet (us, s') <- parse_any f rest s;
              DOk (match u with Some u => u :: us | None => us end, s')
          else parse_any f rest s
      end
  end.
(** As much fuel as there are elements, and one more, is enough. *)
Definition any_fuel (st : list welem) : nat := S (list_sum (map wsize st)).

(** parser.py:107-113, parse: the top-level tables *)
Fixpoint parse_tables (tbls : list welem) (s : seen) : dres (list hunit * seen) :=
  match tbls with
  | [] => DOk ([], s)
  | t :: r =>
      dlet (u, s') <- parse_table (parse_any (any_fuel (w_kids t))) t s;
      dlet (us, s'') <- parse_tables r s';
      DOk (match u with Some u => u :: us | None => us end, s'')
  end.
(** document.py:48-50 tables, parser.py:107-113 *)
Definition parse_docx : dres (list hunit) :=
  dlet (us, _) <- parse_tables (w_all "w:tbl" (dx_body d)) []; DOk us.

End Parser.
