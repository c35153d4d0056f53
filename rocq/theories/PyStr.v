(** Python [str] and [int] operations used by /repo, on lists of code points.
    These are language built-ins (CPython 3.11), not code of /repo; each definition says
    where /repo uses it.  Simplifications are stated in the comments. *)
From Coq Require Import NArith ZArith List Bool String Ascii DecimalN.
From Verif Require Import PyTables.
Import ListNotations.
Local Open Scope N_scope.

(** A Python string: the list of its code points. *)
Definition str := list N.

(** ** Literals *)

(** UTF-8 decoding of the bytes of a Coq string literal (1 to 3 byte sequences; enough
    for every literal in /repo).  Only used to write literals readably. *)
Fixpoint utf8 (s : string) : str :=
  match s with
  | EmptyString => []
  | String a r =>
      let b := N_of_ascii a in
      if b <? 128 then b :: utf8 r
      else if b <? 224 then
        match r with
        | String a1 r1 => (N.land b 31 * 64 + N.land (N_of_ascii a1) 63) :: utf8 r1
        | EmptyString => []
        end
      else
        match r with
        | String a1 (String a2 r2) =>
            (N.land b 15 * 4096 + N.land (N_of_ascii a1) 63 * 64 + N.land (N_of_ascii a2) 63)
              :: utf8 r2
        | _ => []
        end
  end.

(** ** Equality *)

(** [==] on strings. *)
Fixpoint seqb (a b : str) : bool :=
  match a, b with
  | [], [] => true
  | x :: a', y :: b' => (x =? y) && seqb a' b'
  | _, _ => false
  end.

(** [x in [..]] / [x in {..}] for strings. *)
Definition smem (x : str) (l : list str) : bool := existsb (seqb x) l.

(** ** Character classes ([re]'s \s, \w, \d for str patterns; [str.isspace] etc.) *)

Definition in_ranges (l : list (N * N)) (c : N) : bool :=
  existsb (fun p => (fst p <=? c) && (c <=? snd p)) l.

(** \s, and the white space removed by [strip]/[split] without argument. *)
Definition isspace (c : N) : bool :=
  if c <? 128 then (c =? 32) || ((9 <=? c) && (c <=? 13)) || ((28 <=? c) && (c <=? 31))
  else in_ranges space_ranges c.

(** [str.isalnum] of one character. *)
Definition isalnum (c : N) : bool :=
  if c <? 128 then
    ((48 <=? c) && (c <=? 57)) || ((65 <=? c) && (c <=? 90)) || ((97 <=? c) && (c <=? 122))
  else in_ranges alnum_ranges c.

(** \w *)
Definition isword (c : N) : bool := isalnum c || (c =? 95).

(** The decimal value of a digit character (any script), [None] for other characters. *)
Definition digit_val (c : N) : option N :=
  if c <? 128 then if (48 <=? c) && (c <=? 57) then Some (c - 48) else None
  else match find (fun z => (z <=? c) && (c <=? z + 9)) digit_zeros with
       | Some z => Some (c - z)
       | None => None
       end.

(** \d *)
Definition isdigit (c : N) : bool :=
  match digit_val c with Some _ => true | None => false end.

(** ** Case mapping *)

Definition assocN (c : N) (l : list (N * list N)) : option (list N) :=
  match find (fun p => fst p =? c) l with Some p => Some (snd p) | None => None end.

(** [str.upper] of one character (may give several). *)
Definition upper_char (c : N) : list N :=
  if c <? 128 then [if (97 <=? c) && (c <=? 122) then c - 32 else c]
  else match assocN c upper_table with Some l => l | None => [c] end.

(** [str.lower] of one character.  Simplification: the context rule for a final capital
    sigma is not modelled. *)
Definition lower_char (c : N) : list N :=
  if c <? 128 then [if (65 <=? c) && (c <=? 90) then c + 32 else c]
  else match assocN c lower_table with Some l => l | None => [c] end.

(** [s.upper()], [s.lower()] *)
Definition upper (s : str) : str := flat_map upper_char s.
Definition lower (s : str) : str := flat_map lower_char s.

(** ** Prefixes and suffixes *)

(** The longest prefix of characters satisfying [p], and the rest. *)
Fixpoint take_while (p : N -> bool) (s : str) : str :=
  match s with c :: r => if p c then c :: take_while p r else [] | [] => [] end.
Fixpoint drop_while (p : N -> bool) (s : str) : str :=
  match s with c :: r => if p c then drop_while p r else s | [] => [] end.

(** [lstrip]/[rstrip]/[strip] of the characters satisfying [p]. *)
Definition lstrip_by (p : N -> bool) (s : str) : str := drop_while p s.
Definition rstrip_by (p : N -> bool) (s : str) : str := rev (drop_while p (rev s)).
Definition strip_by (p : N -> bool) (s : str) : str := rstrip_by p (lstrip_by p s).

(** [s.strip()] *)
Definition strip (s : str) : str := strip_by isspace s.

(** [s.startswith(p)] *)
Fixpoint startswith (p s : str) : bool :=
  match p, s with
  | [], _ => true
  | x :: p', y :: s' => (x =? y) && startswith p' s'
  | _, _ => false
  end.

(** [s.endswith(p)] *)
Definition endswith (p s : str) : bool := startswith (rev p) (rev s).

(** [needle in s] *)
Fixpoint contains (needle s : str) : bool :=
  startswith needle s || match s with [] => false | _ :: r => contains needle r end.

(** [c in s] for a one-character needle. *)
Definition has_char (c : N) (s : str) : bool := existsb (N.eqb c) s.

(** ** Replacement *)

(** [s.replace(c, by)] for a one-character [c]. *)
Definition replace_char (c : N) (by_ : str) (s : str) : str :=
  flat_map (fun x => if x =? c then by_ else [x]) s.

(** [s.replace(cc, by)] where the first argument is the two-character string [cc]:
    left to right, non-overlapping, a single pass. *)
Fixpoint replace_pair (c : N) (by_ : str) (s : str) : str :=
  match s with
  | x :: ((y :: r) as t) =>
      if (x =? c) && (y =? c) then by_ ++ replace_pair c by_ r else x :: replace_pair c by_ t
  | _ => s
  end.

(** [re.sub(" +", " ", s)]: every maximal run of spaces becomes one space. *)
Fixpoint collapse_spaces (s : str) : str :=
  match s with
  | x :: r =>
      if x =? 32 then
        match r with
        | y :: _ => if y =? 32 then collapse_spaces r else 32 :: collapse_spaces r
        | [] => [32]
        end
      else x :: collapse_spaces r
  | [] => []
  end.

(** ** Splitting *)

(** [s.split(c, 1)]: head and, if [c] occurs, the part after its first occurrence. *)
Fixpoint split1 (c : N) (s : str) : str * option str :=
  match s with
  | [] => ([], None)
  | x :: r => if x =? c then ([], Some r) else let (h, t) := split1 c r in (x :: h, t)
  end.

(** [s.split(c)] for a one-character separator. *)
Fixpoint split_char (c : N) (s : str) : list str :=
  match s with
  | [] => [[]]
  | x :: r =>
      if x =? c then [] :: split_char c r
      else match split_char c r with
           | w :: ws => (x :: w) :: ws
           | [] => [[x]]
           end
  end.

(** [s.split()]: the maximal runs of non-space characters.
    [cur] is the word being read, reversed. *)
Fixpoint words_aux (cur : str) (s : str) : list str :=
  match s with
  | [] => match cur with [] => [] | _ => [rev cur] end
  | c :: r =>
      if isspace c then
        match cur with [] => words_aux [] r | _ => rev cur :: words_aux [] r end
      else words_aux (c :: cur) r
  end.
Definition words (s : str) : list str := words_aux [] s.

(** [sep.join(l)] *)
Fixpoint join (sep : str) (l : list str) : str :=
  match l with
  | [] => []
  | [x] => x
  | x :: r => x ++ sep ++ join sep r
  end.

(** ** Integers *)

(** Value of a digit sequence, most significant first. *)
Definition digits_val (s : str) : N :=
  fold_left (fun acc c => acc * 10 + match digit_val c with Some d => d | None => 0 end) s 0.

(** CPython refuses to convert more than 4300 digits. *)
Definition int_max_digits : N := 4300.

(** Body of an integer literal: digits with single underscores between digits. *)
Fixpoint int_body (s : str) (prev_digit : bool) : option str :=
  match s with
  | [] => if prev_digit then Some [] else None
  | c :: r =>
      if isdigit c then
        match int_body r true with Some d => Some (c :: d) | None => None end
      else if (c =? 95) && prev_digit then int_body r false
      else None
  end.

(** [int(s)]; [None] is ValueError.  Simplification: the ASCII separators U+001C..U+001F
    are stripped as white space (CPython only does so in non-ASCII text); they cannot occur
    in XML. *)
Definition py_int (s : str) : option Z :=
  let s := strip s in
  let '(neg, body) :=
    match s with
    | c :: r => if c =? 43 then (false, r) else if c =? 45 then (true, r) else (false, s)
    | [] => (false, [])
    end in
  match int_body body false with
  | None => None
  | Some ds =>
      if N.of_nat (List.length ds) <=? int_max_digits
      then let v := Z.of_N (digits_val ds) in Some (if neg then Z.opp v else v)
      else None
  end.

Fixpoint uint_str (d : Decimal.uint) : str :=
  match d with
  | Decimal.Nil => []
  | Decimal.D0 d => 48 :: uint_str d
  | Decimal.D1 d => 49 :: uint_str d
  | Decimal.D2 d => 50 :: uint_str d
  | Decimal.D3 d => 51 :: uint_str d
  | Decimal.D4 d => 52 :: uint_str d
  | Decimal.D5 d => 53 :: uint_str d
  | Decimal.D6 d => 54 :: uint_str d
  | Decimal.D7 d => 55 :: uint_str d
  | Decimal.D8 d => 56 :: uint_str d
  | Decimal.D9 d => 57 :: uint_str d
  end.

(** [str(n)] for a natural number. *)
Definition str_of_N (n : N) : str := uint_str (N.to_uint n).

(** [str(z)] for an int. *)
Definition str_of_Z (z : Z) : str :=
  match z with
  | Zneg p => 45 :: str_of_N (Npos p)
  | Zpos p => str_of_N (Npos p)
  | Z0 => [48]
  end.
