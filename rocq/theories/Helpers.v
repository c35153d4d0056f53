(** src/spex/jsonspec/extractors/helpers.py and the constants of jsonspec/defs.py. *)
From Coq Require Import NArith ZArith List Bool String.
From Verif Require Import PyStr Regex Regexes Xml Json Lint.
Import ListNotations.
Local Open Scope N_scope.
Local Open Scope m_scope.

(** src/spex/jsonspec/defs.py:53-58 *)
Definition RESERVED : str := Eval compute in utf8 "RESERVED".
Definition ELLIPSIS : str := [8230].
Definition OBSOLETE : str := Eval compute in utf8 "OBSOLETE".
Definition NOTE : str := Eval compute in utf8 "NOTE".
Definition SPECIAL_CASE_SET : list str := [RESERVED; ELLIPSIS; OBSOLETE].

(** A match group used as [m.group(g)]: absent groups are [None]. *)
Definition grp (g : N) (m : option caps) : option str :=
  match m with Some c => group g c | None => None end.

(** A group that is "not None and not the empty string". *)
Definition grp_nonempty (g : N) (m : option caps) : option str :=
  match grp g m with Some [] => None | x => x end.

(** helpers.py:21-26, extract_content *)
Definition extract_content (data : elem) : option str :=
  match nth_child t_p 0 data with Some p => Some (to_text p) | None => None end.

(** helpers.py:29-51, content_extract_brief *)
Definition content_extract_brief (txt : str) (maxlen : N) : option str :=
  if negb (has_char 58 txt) then None
  else match grp G_brief (re_match STRUCT_LABEL_REGEX txt) with
       | None => None
       | Some b =>
           let brief := lstrip_by (N.eqb 32) (rstrip_by (N.eqb 46) b) in
           if N.of_nat (List.length brief) <=? maxlen then Some brief
           else let b1 := fst (split1 46 brief) in
                if N.of_nat (List.length b1) <=? maxlen then Some b1 else None
       end.

(** The first character of every word. *)
Definition initials (s : str) : str :=
  flat_map (fun w => match w with c :: _ => [c] | [] => [] end) (words s).

(** helpers.py:54-66, generate_acronym *)
Definition generate_acronym (s : str) : str := lower (initials s).

(** helpers.py:69-82, rearrange_num_label *)
Definition rearrange_num_label (label : str) : str :=
  let m := re_match LABEL_NUMERICAL_REARRANGE_REGEX label in
  match grp G_1 m, grp G_2 m with
  | Some num, Some rest =>
      strip_by (N.eqb 95) (strip_by (N.eqb 95) rest ++ [95] ++ num)
  | _, _ => label
  end.

(** helpers.py:85-104, normalize_label *)
Definition normalize_label (label : str) : str :=
  upper (replace_pair 95 [95]
          (replace_char 45 [95]
            (replace_char 47 []
              (replace_char 32 [95]
                (rstrip_by isspace (lstrip_by isspace label)))))).

(** helpers.py:116-119: neither pattern matches. *)
Definition label_invalid (lbl : str) : bool :=
  match re_match LABEL_VALIDATION_REGEX lbl, re_match ELLIPSIS_LABEL_REGEX lbl with
  | None, None => true
  | _, _ => false
  end.

(** helpers.py:107-122, validate_label *)
Definition validate_label (lbl fig row : str) : M unit :=
  if label_invalid lbl
  then add_issue L1004 fig (Some row) [(utf8 "label", JStr lbl)]
  else ret tt.
