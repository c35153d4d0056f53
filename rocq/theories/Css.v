(** The style sheet: src/spex/htmlspec/css.py, the to_css of docx/numbering.py and the parts of
    htmlrenderer.py that write it. *)
From Coq Require Import NArith ZArith List Bool String.
From Verif Require Import PyStr Docx Render.
Import ListNotations.
Local Open Scope string_scope.
Local Open Scope list_scope.

(** css.py:10-18, css_block: its lines *)
Definition css_block (selectors : list str) (attrs : list (str * str)) : list str :=
  [join (utf8 ", ") selectors ++ utf8 " {"] ++ map (fun a => fst a ++ utf8 ": " ++ snd a ++ utf8 ";") attrs ++ [utf8 "}"].

(** numbering.py:23-30 and 54, the style of an ordered list *)
Definition ol_style (fmt : str) : str :=
  if seqb fmt (utf8 "decimal") then utf8 "decimal"
  else if seqb fmt (utf8 "lowerLetter") then utf8 "lower-alpha"
  else if seqb fmt (utf8 "lowerRoman") then utf8 "lower-roman"
  else utf8 "decimal".
(** numbering.py:45-61, to_css; [range] of a negative number is empty *)
Definition to_css (l : lvl) : str :=
  let tags := join (utf8 " ") (repeat (lvl_tag l) (Z.to_nat (v_ilvl l))) in
  let style := if is_ordered l then ol_style (v_fmt l)
               else if (v_ilvl l mod 2 =? 0)%Z then utf8 "disc" else utf8 "circle" in
  match tags with
  | [] => lvl_tag l ++ utf8 "." ++ lvl_class l ++ utf8 " { list-style-type: " ++ style ++ utf8 "; }"
  | _ => lvl_tag l ++ utf8 "." ++ lvl_class l ++ utf8 " " ++ tags ++ utf8 " { list-style-type: " ++ style ++ utf8 "; }"
  end.

(** htmlrenderer.py:56-108, __write_css_prelude, with 118-119 iter_styles of numbering.py *)
Definition css_prelude (num : option numbering) : list str :=
  css_block [utf8 "body"] [(utf8 "font-family", utf8 "sans-serif")]
  ++ css_block [utf8 "p:first-child"] [(utf8 "margin-top", utf8 ".3em")]
  ++ css_block [utf8 "p:last-child"] [(utf8 "margin-bottom", utf8 ".3em")]
  ++ css_block [utf8 "p"] [(utf8 "margin-top", utf8 "0em"); (utf8 "margin-left", utf8 ".2em"); (utf8 "margin-right", utf8 ".2em")]
  ++ css_block [utf8 "table"; utf8 "td"; utf8 "th"] [(utf8 "border-collapse", utf8 "collapse"); (utf8 "border", utf8 "1px solid black;")]
  ++ css_block [utf8 "table"] [(utf8 "margin-left", utf8 ".3em"); (utf8 "margin-right", utf8 ".3em");
       (utf8 "margin-bottom", utf8 "3em"); (utf8 "margin-top", utf8 "1em")]
  ++ css_block [utf8 "td table"] [(utf8 "margin-bottom", utf8 "1em")]
  ++ match num with
     | None => []
     | Some n => [utf8 "/* list-formatting styles */"] ++ flat_map (fun p => map to_css (snd p)) (n_abs n)
     end.
(** htmlrenderer.py:110-117, __write_css_epilog; css.py:46-48, emit_rules *)
Definition class_block (p : str * list (str * str)) : list str := css_block [utf8 "." ++ fst p] (snd p).
Definition css_epilog (c : caches) : list str :=
  [utf8 "/* text-formatting styles */"] ++ flat_map class_block (emit_rules css_attrs (c_txt c))
  ++ [utf8 "/* table cell formatting styles */"] ++ flat_map class_block (emit_rules fill_css (c_cell c)).
(** htmlrenderer.py:119-160, generate: the lines of the style sheet, [c] being the caches after
    the tables were rendered *)
Definition css_lines (num : option numbering) (c : caches) : list str := css_prelude num ++ css_epilog c.

(** The characters of a file with these lines: gcgen's Section indents them (by any width here). *)
Inductive lines_written : list str -> str -> Prop :=
| lw_nil : lines_written [] []
| lw_line w l ls s : Forall (fun c => c = 32 \/ c = 9)%N w -> lines_written ls s -> lines_written (l :: ls) (w ++ l ++ [10%N] ++ s).
