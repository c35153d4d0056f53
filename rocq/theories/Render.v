(** src/spex/htmlspec/htmlrenderer.py and css.py: writing the HTML document. *)
From Coq Require Import NArith ZArith List Bool String.
From Verif Require Import PyStr Docx.
Import ListNotations.
Local Open Scope string_scope.
Local Open Scope list_scope.
Local Open Scope N_scope.

(** html.escape (Python's html/__init__.py), as used at htmlrenderer.py:169 *)
Definition html_escape (s : str) : str :=
  replace_char 39 (utf8 "&#x27;")
    (replace_char 34 (utf8 "&quot;")
      (replace_char 62 (utf8 "&gt;")
        (replace_char 60 (utf8 "&lt;")
          (replace_char 38 (utf8 "&amp;") s)))).

(** ** css.py: the class name cache *)

(** css.py:27-30.  [K] are the formats, [eq] their equality (dict keys; equal formats have
    equal hashes: C49), [css] their CSS attributes. *)
Record cache (K : Type) := mkCache { ca_dict : list (K * str); ca_count : N }.
Arguments mkCache {K}. Arguments ca_dict {K}. Arguments ca_count {K}.
Section Cache.
Context {K : Type}.
Variables (prefix : str) (eq : K -> K -> bool) (css : K -> list (str * str)).
Definition empty_cache : cache K := mkCache [] 0.
(** css.py:32-44, get_clsname *)
Definition get_clsname (k : K) (c : cache K) : option str * cache K :=
  match css k with
  | [] => (None, c)
  | _ =>
      match find (fun p => eq (fst p) k) (ca_dict c) with
      | Some p => (Some (snd p), c)
      | None =>
          let name := prefix ++ str_of_N (ca_count c) in
          (Some name, mkCache (ca_dict c ++ [(k, name)]) (ca_count c + 1))
      end
  end.
(** css.py:46-48, emit_rules: one block per entry; here class name and attributes *)
Definition emit_rules (c : cache K) : list (str * list (str * str)) :=
  map (fun p => (snd p, css (fst p))) (ca_dict c).
End Cache.

(** runproperties.py:117-118: equality of run properties is equality of their CSS attributes
    (as dicts; the keys always come in the same order). *)
Fixpoint attrs_eqb (a b : list (str * str)) : bool :=
  match a, b with
  | [], [] => true
  | (k, v) :: a, (k', v') :: b => seqb k k' && seqb v v' && attrs_eqb a b
  | _, _ => false
  end.
Definition rp_eqb (a b : rprops) : bool := attrs_eqb (css_attrs a) (css_attrs b).
(** runproperties.py:120-121: the hash depends on this set only *)
Definition rp_hash_of (p : rprops) : list str := map fst (css_attrs p).
(** parser.py:18-26, TcPr: equality of the fill colours *)
Definition fill_css (f : str) : list (str * str) :=
  if smem f [utf8 "None"; utf8 "auto"] then [] else [(utf8 "background-color", utf8 "#" ++ f)].

Record caches := mkCaches { c_txt : cache rprops; c_cell : cache str }.
Definition no_caches : caches := mkCaches empty_cache empty_cache.
Definition txt_class (p : rprops) (c : caches) : option str * caches :=
  let (n, t) := get_clsname (utf8 "txtfmt") rp_eqb css_attrs p (c_txt c) in (n, mkCaches t (c_cell c)).
Definition cell_class (f : str) (c : caches) : option str * caches :=
  let (n, t) := get_clsname (utf8 "tcell") seqb fill_css f (c_cell c) in (n, mkCaches (c_txt c) t).

(** ** What is written *)

(** Pieces of the document: an opening tag with its attributes as written, an empty element, a
    closing tag, text as written, the document type, and white space between them.
    The indentation that gcgen's Section adds is added in [writes] below. *)
Inductive tok :=
| TOpen (tag : str) (attrs : list (str * str))
| TVoid (tag : str) (attrs : list (str * str))
| TClose (tag : str)
| TText (s : str)
| TDoctype
| TNl.

(** htmlrenderer.py:168-177, _render_span *)
Definition render_span (sp : span) (c : caches) : list tok * caches :=
  let (cls, c') := match sp_style sp with Some p => txt_class p c | None => (None, c) end in
  ([TOpen (utf8 "span") (match cls with Some n => [(utf8 "class", n)] | None => [] end);
    TText (html_escape (sp_text sp)); TClose (utf8 "span")], c').
(** a loop over items, threading the caches *)
Fixpoint render_all {A} (f : A -> caches -> list tok * caches) (l : list A) (c : caches) : list tok * caches :=
  match l with
  | [] => ([], c)
  | a :: r => let (t, c') := f a c in let (ts, c'') := render_all f r c' in (t ++ ts, c'')
  end.
(** htmlrenderer.py:162-166, _render_paragraph *)
Definition render_par (spans : list span) (c : caches) : list tok * caches :=
  let (ts, c') := render_all render_span spans c in
  ([TOpen (utf8 "p") []; TNl] ++ ts ++ [TClose (utf8 "p"); TNl], c').

(** htmlrenderer.py:179-200, _render_list *)
Fixpoint render_item (it : litem) (open_elem : bool) (c : caches) : list tok * bool * caches :=
  match it with
  | LItem spans =>
      let (ts, c') := render_all render_span spans c in
      ((if open_elem then [TClose (utf8 "li"); TNl] else []) ++ [TOpen (utf8 "li") []; TNl] ++ ts, true, c')
  | LSub props items =>
      let '(ts, o, c') :=
        (fix loop (its : list litem) (o : bool) (c : caches) : list tok * bool * caches :=
           match its with
           | [] => ([], o, c)
           | i :: r =>
               let '(t, o', c') := render_item i o c in
               let '(ts, o'', c'') := loop r o' c' in
               (t ++ ts, o'', c'')
           end) items false c in
      ((if open_elem then [] else [TOpen (utf8 "li") []; TNl])
       ++ ([TOpen (lvl_tag props) [(utf8 "class", lvl_class props)]; TNl] ++ ts
           ++ (if o then [TClose (utf8 "li"); TNl] else []) ++ [TClose (lvl_tag props); TNl])
       ++ [TClose (utf8 "li"); TNl], false, c')
  end.
Fixpoint render_items (its : list litem) (o : bool) (c : caches) : list tok * bool * caches :=
  match its with
  | [] => ([], o, c)
  | i :: r =>
      let '(t, o', c') := render_item i o c in
      let '(ts, o'', c'') := render_items r o' c' in
      (t ++ ts, o'', c'')
  end.
Definition render_list (props : lvl) (items : list litem) (c : caches) : list tok * caches :=
  let '(ts, o, c') := render_items items false c in
  ([TOpen (lvl_tag props) [(utf8 "class", lvl_class props)]; TNl] ++ ts
   ++ (if o then [TClose (utf8 "li"); TNl] else []) ++ [TClose (lvl_tag props); TNl], c').

(** htmlrenderer.py:219-226, the attributes of a cell *)
Definition cell_attrs (t : tcell) (cls : option str) : list (str * str) :=
  (if (1 <? fst (tc_span t))%Z then [(utf8 "colspan", str_of_Z (fst (tc_span t)))] else [])
  ++ (if (1 <? snd (tc_span t))%Z then [(utf8 "rowspan", str_of_Z (snd (tc_span t)))] else [])
  ++ match cls with Some n => [(utf8 "class", n)] | None => [] end.
Definition table_attrs (id : option str) : list (str * str) :=
  match id with Some ((_ :: _) as i) => [(utf8 "id", i)] | _ => [] end.

Section Table.
(** [ru] renders the contents of a cell. *)
Variable ru : hunit -> caches -> list tok * caches.
(** htmlrenderer.py:209-229: one cell at position ([x], [y]) *)
Definition render_cell (x y : Z) (t : tcell) (c : caches) : list tok * caches :=
  if negb ((fst (tc_origin t) =? x)%Z && (snd (tc_origin t) =? y)%Z) then ([], c)
  else
    let (cls, c') := match tc_fill t with Some f => cell_class f c | None => (None, c) end in
    let (ts, c'') :=
      (fix loop (us : list hunit) (c : caches) : list tok * caches :=
         match us with
         | [] => ([], c)
         | u :: r => let (t, c') := ru u c in let (ts, c'') := loop r c' in (t ++ ts, c'')
         end) (tc_elems t) c' in
    ([TOpen (tc_tag t) (cell_attrs t cls)] ++ ts ++ [TClose (tc_tag t); TNl], c'').
Fixpoint render_cells (x y : Z) (ts : list tcell) (c : caches) : list tok * caches :=
  match ts with
  | [] => ([], c)
  | t :: r =>
      let (l, c') := render_cell x y t c in
      let (ls, c'') := render_cells (x + 1)%Z y r c' in (l ++ ls, c'')
  end.
(** htmlrenderer.py:207-230: the rows *)
Fixpoint render_rows (y : Z) (rows : list (list tcell)) (c : caches) : list tok * caches :=
  match rows with
  | [] => ([], c)
  | row :: r =>
      let (l, c') := render_cells 0 y row c in
      let (ls, c'') := render_rows (y + 1)%Z r c' in
      ([TOpen (utf8 "tr") []; TNl] ++ l ++ [TClose (utf8 "tr"); TNl] ++ ls, c'')
  end.
End Table.

(** htmlrenderer.py:202-231 _render_table, 233-243 _render_any *)
Fixpoint render_unit (u : hunit) (c : caches) : list tok * caches :=
  match u with
  | HPar spans => render_par spans c
  | HList props items => render_list props items c
  | HTable _ id rows =>
      let (ts, c') := render_rows render_unit 0 rows c in
      ([TOpen (utf8 "table") (table_attrs id); TNl] ++ ts ++ [TClose (utf8 "table"); TNl], c')
  end.

(** htmlrenderer.py:119-160, generate: the whole document for a file named [fname].docx *)
Definition html_head (version fname title : str) (revision : option str) : list tok :=
  [TDoctype; TNl; TOpen (utf8 "html") [(utf8 "lang", utf8 "en")]; TNl; TOpen (utf8 "head") []; TNl;
   TVoid (utf8 "meta") ([(utf8 "charset", utf8 "utf-8"); (utf8 "data-spec", title)]
     ++ match revision with Some r => [(utf8 "data-revision", r)] | None => [] end); TNl;
   TVoid (utf8 "meta") [(utf8 "name", utf8 "spexVersion"); (utf8 "content", version)]; TNl;
   TOpen (utf8 "title") []; TText fname; TClose (utf8 "title"); TNl;
   TVoid (utf8 "link") [(utf8 "rel", utf8 "stylesheet"); (utf8 "href", fname ++ utf8 ".css")]; TNl;
   TClose (utf8 "head"); TNl].
Definition html_doc (version fname title : str) (revision : option str) (tbls : list hunit) : list tok * caches :=
  let (ts, c) := render_all render_unit tbls no_caches in
  (html_head version fname title revision
   ++ [TOpen (utf8 "body") []; TNl] ++ ts ++ [TClose (utf8 "body"); TNl; TClose (utf8 "html"); TNl], c).

(** The characters of a piece.  The id of a table is written between single quotes (204), every
    other attribute between double quotes (133-144, 175, 180, 222-224). *)
Definition attr_quote (name : str) : N := if seqb name (utf8 "id") then 39 else 34.
Definition show_attr (a : str * str) : str := utf8 " " ++ fst a ++ [61; attr_quote (fst a)] ++ snd a ++ [attr_quote (fst a)].
Definition show (t : tok) : str :=
  match t with
  | TOpen tag attrs => [60] ++ tag ++ flat_map show_attr attrs ++ [62]
  | TVoid tag attrs => [60] ++ tag ++ flat_map show_attr attrs ++ [47; 62]
  | TClose tag => [60; 47] ++ tag ++ [62]
  | TText s => s
  | TDoctype => utf8 "<!DOCTYPE html>"
  | TNl => [10]
  end.
(** The file, not indented. *)
Definition html_text (ts : list tok) : str := flat_map show ts.
(** The characters a file with these pieces may have: gcgen's Section begins the lines with an
    indentation (of any width here), and an empty element may end in a space (141). *)
Inductive writes : list tok -> str -> Prop :=
| wr_nil : writes [] []
| wr_nl w ts s : Forall (fun c => c = 32 \/ c = 9) w -> writes ts s -> writes (TNl :: ts) (10 :: w ++ s)
| wr_void tag attrs w ts s : Forall (fun c => c = 32 \/ c = 9) w -> writes ts s ->
    writes (TVoid tag attrs :: ts) ([60] ++ tag ++ flat_map show_attr attrs ++ w ++ [47; 62] ++ s)
| wr_tok t ts s : match t with TNl | TVoid _ _ => False | _ => True end -> writes ts s -> writes (t :: ts) (show t ++ s).
