(** The report page: src/spexsrv/templates/report.html and
    src/spexsrv/application/report_view.py. *)
From Coq Require Import NArith ZArith List Bool String.
From Verif Require Import PyStr Xml Json Lint Output.
Import ListNotations.
Local Open Scope string_scope.
Local Open Scope list_scope.
Local Open Scope N_scope.

(** A lint entry as the page sees it: its code, message and figure; the rest of the JSON object
    is only displayed. *)
Record entry := mkEntry { le_code : str; le_msg : str; le_fig : str; le_rest : json }.

Definition jstr (k : string) (l : list (str * json)) : option str :=
  match jget (utf8 k) l with Some (JStr s) => Some s | _ => None end.
Definition entry_of (j : json) : option entry :=
  match j with
  | JObj l =>
      match jstr "code" l, jstr "msg" l, jstr "fig" l with
      | Some c, Some m, Some f => Some (mkEntry c m f j)
      | _, _, _ => None
      end
  | _ => None
  end.
Fixpoint all_some {A} (l : list (option A)) : option (list A) :=
  match l with
  | [] => Some []
  | Some a :: r => match all_some r with Some l => Some (a :: l) | None => None end
  | None :: _ => None
  end.
(** report.html:241,309 [report.meta.lint] *)
Definition report_lint (d : model) : option (list entry) :=
  match jget (utf8 "lint") (mo_meta d) with Some (JList l) => all_some (map entry_of l) | _ => None end.

(** ** JavaScript objects *)

(** The names every object inherits (Object.prototype); their values are all truthy. *)
Definition inherited : list str := map utf8
  ["constructor"; "__defineGetter__"; "__defineSetter__"; "hasOwnProperty"; "__lookupGetter__";
   "__lookupSetter__"; "isPrototypeOf"; "propertyIsEnumerable"; "toString"; "valueOf"; "__proto__";
   "toLocaleString"].

(** The own properties of an object, in the order they were created. *)
Definition jsobj (A : Type) := list (str * A).
Definition own {A} (k : str) (o : jsobj A) : option A :=
  match find (fun p => seqb (fst p) k) o with Some p => Some (snd p) | None => None end.
(** Replace the value of an own property, or create it. *)
Fixpoint js_set {A} (k : str) (v : A) (o : jsobj A) : jsobj A :=
  match o with
  | [] => [(k, v)]
  | (k', v') :: r => if seqb k' k then (k', v) :: r else (k', v') :: js_set k v r
  end.

(** Array.prototype.sort with a comparison: stable. *)
Fixpoint insert_by {A} (before : A -> A -> bool) (x : A) (l : list A) : list A :=
  match l with
  | [] => [x]
  | y :: r => if before x y then x :: y :: r else y :: insert_by before x r
  end.
Definition sort_by {A} (before : A -> A -> bool) (l : list A) : list A :=
  fold_right (insert_by before) [] l.

(** An array index: the decimal form of a number below 2^32-1. *)
Definition array_index (k : str) : option N :=
  if forallb (fun c => (48 <=? c) && (c <=? 57)) k
  then let n := fold_left (fun n c => 10 * n + (c - 48)) k 0 in
       if seqb k (str_of_N n) && (n <? 4294967295) then Some n else None
  else None.
Definition index_of (k : str) : N := match array_index k with Some n => n | None => 0 end.
(** The order of Object.entries and Object.values: array indices in ascending order, then the
    other names in order of creation. *)
Definition entries_order {A} (o : jsobj A) : jsobj A :=
  sort_by (fun a b => index_of (fst a) <=? index_of (fst b))
    (filter (fun p => match array_index (fst p) with Some _ => true | None => false end) o)
  ++ filter (fun p => match array_index (fst p) with Some _ => false | None => true end) o.

(** ** The summary *)

Record row := mkRow { w_code : str; w_msg : str; w_amount : N }.

(** report.html:242-249.  For an inherited name, line 244 changes a property of the inherited
    value: nothing is added to [acc]. *)
Definition group_code (acc : jsobj row) (e : entry) : jsobj row :=
  match own (le_code e) acc with
  | Some r => js_set (le_code e) (mkRow (w_code r) (w_msg r) (w_amount r + 1)) acc
  | None => if smem (le_code e) inherited then acc
            else js_set (le_code e) (mkRow (le_code e) (le_msg e) 1) acc
  end.
(** report.html:240-254, lintGroupByCode *)
Definition lint_group_by_code (lint : list entry) : list row :=
  sort_by (fun a b => w_amount b <=? w_amount a) (map snd (entries_order (fold_left group_code lint []))).
(** report.html:256-259, errorSum *)
Definition error_sum (lint : list entry) : N :=
  fold_left (fun n r => n + w_amount r) (lint_group_by_code lint) 0.

(** The rows of the table, each selected or not (report.html:274-294). *)
Definition rows := list (row * bool).
(** report.html:287-293 *)
Definition summary_init (lint : list entry) : rows := map (fun r => (r, false)) (lint_group_by_code lint).
(** report.html:275-280: the first row with that code is flipped. *)
Fixpoint toggle (code : str) (rs : rows) : rows :=
  match rs with
  | [] => []
  | (r, b) :: l => if seqb (w_code r) code then (r, negb b) :: l else (r, b) :: toggle code l
  end.
(** report.html:281-286 *)
Definition clear (rs : rows) : rows := map (fun p => (fst p, false)) rs.

(** What the user does: click on a row, click on "Clear all filters" (report.html:116,133). *)
Inductive click := ClickRow (code : str) | ClickClear.
Definition on_click (rs : rows) (c : click) : rows :=
  match c with ClickRow code => toggle code rs | ClickClear => clear rs end.
Definition after_clicks (lint : list entry) (cs : list click) : rows := fold_left on_click cs (summary_init lint).

(** ** The figures *)

(** report.html:306-308 *)
Definition filter_codes (rs : rows) : list str := map (fun p => w_code (fst p)) (filter snd rs).
(** report.html:309-315: [find] gives the code, which counts as false if it is empty. *)
Definition filtered (rs : rows) (lint : list entry) : list entry :=
  match filter_codes rs with
  | [] => lint
  | cs => filter (fun e => match find (fun c => seqb c (le_code e)) cs with Some (_ :: _) => true | _ => false end) lint
  end.
(** report.html:318-325; [None]: a TypeError, [push] of an inherited value is not a function. *)
Fixpoint group_fig (acc : jsobj (list entry)) (lint : list entry) : option (jsobj (list entry)) :=
  match lint with
  | [] => Some acc
  | e :: r =>
      match own (le_fig e) acc with
      | Some l => group_fig (js_set (le_fig e) (l ++ [e]) acc) r
      | None => if smem (le_fig e) inherited then None else group_fig (js_set (le_fig e) [e] acc) r
      end
  end.
(** report.html:152-153, 299-346: the figures shown, each with its lint entries.  Left out: the
    entities ([value]), which are not displayed. *)
Definition figures_shown (rs : rows) (lint : list entry) : option (jsobj (list entry)) :=
  match group_fig [] (filtered rs lint) with
  | Some o => Some (filter (fun p => match snd p with [] => false | _ => true end) (entries_order o))
  | None => None
  end.

(** ** The tables of the figures *)

(** app.py:122-124 and report.html:262: [fig.split("_")[0]] *)
Definition figure_id (fig : str) : str := match split_char 95 fig with s :: _ => s | [] => [] end.

(** The XPath predicate [@id=<id>] (report_view.py:20) on a table.  For an id of decimal digits
    it compares the number the attribute's text stands for.  Simplifications: other ids (names,
    expressions and syntax errors, for which lines 23-24 skip the figure) select nothing; of the
    texts that stand for a number, only digits between white space are considered; numbers are
    exact, without the rounding of floats. *)
Definition xpath_digits (s : str) : option N :=
  match s with
  | [] => None
  | _ => if forallb (fun c => (48 <=? c) && (c <=? 57)) s
         then Some (fold_left (fun n c => 10 * n + (c - 48)) s 0) else None
  end.
Definition xml_space (c : N) : bool := (c =? 32) || (c =? 9) || (c =? 10) || (c =? 13).
Definition id_matches (fig : str) (t : elem) : bool :=
  match xpath_digits fig, attr (utf8 "id") t with
  | Some n, Some v => match xpath_digits (strip_by xml_space v) with Some m => n =? m | None => false end
  | _, _ => false
  end.
(** report_view.py:14-26, get_erroneous_figures: the first table of the body that matches.
    [figures] is app.py:122-124, the set of the figure ids of the entries in some order.
    The formatted table is represented by the table. *)
Definition find_figure (doc : elem) (fig : str) : option elem :=
  find (id_matches (figure_id fig)) (flat_map (children (utf8 "table")) (children (utf8 "body") doc)).
Definition erroneous_figures (figures : list str) (doc : elem) : list (str * elem) :=
  flat_map (fun f => match find_figure doc f with Some t => [(f, t)] | None => [] end) figures.

(** report.html:261-270, getFigureId: the table, or else the id of the figure; for an inherited
    name the text of a builtin function. *)
Inductive figure_view := ShowTable (t : elem) | ShowId (fig : str) | ShowBuiltin (name : str).
Definition get_figure (report_html : list (str * elem)) (fig : str) : figure_view :=
  match own (figure_id fig) report_html with
  | Some t => ShowTable t
  | None => if smem (figure_id fig) inherited then ShowBuiltin (figure_id fig) else ShowId fig
  end.
