(** The text of JSON documents and messages: what json.dump and json.dumps of CPython's json
    package write (json/encoder.py), as used at src/spex/writer.py:102 and
    src/spexsrv/application/app.py:57, and a reader for it (json.loads, JSON.parse). *)
From Coq Require Import NArith ZArith List Bool String.
From Verif Require Import PyStr Json Output.
Import ListNotations.
Local Open Scope string_scope.
Local Open Scope list_scope.
Local Open Scope N_scope.

(** ** Writing *)

(** ['{0:04x}'.format(n)] for [n] below 65536 *)
Definition hex_digit (n : N) : N := if n <? 10 then 48 + n else 87 + n.
Definition hex4 (n : N) : str :=
  [hex_digit (n / 4096); hex_digit (n / 256 mod 16); hex_digit (n / 16 mod 16); hex_digit (n mod 16)].
Definition u_escape (n : N) : str := 92 :: 117 :: hex4 n.

(** json/encoder.py, ESCAPE_DCT without the entries added by the loop: what follows the
    backslash *)
Definition short_escape (c : N) : option N :=
  if c =? 92 then Some 92 else if c =? 34 then Some 34
  else if c =? 8 then Some 98 else if c =? 12 then Some 102 else if c =? 10 then Some 110
  else if c =? 13 then Some 114 else if c =? 9 then Some 116 else None.
(** encode_basestring (ensure_ascii=False) on one character *)
Definition enc_char (c : N) : str :=
  match short_escape c with
  | Some e => [92; e]
  | None => if c <? 32 then u_escape c else [c]
  end.
(** encode_basestring_ascii (the default) on one character *)
Definition enc_char_ascii (c : N) : str :=
  match short_escape c with
  | Some e => [92; e]
  | None =>
      if (32 <=? c) && (c <=? 126) then [c]
      else if c <? 65536 then u_escape c
      else let n := c - 65536 in u_escape (55296 + n / 1024 mod 1024) ++ u_escape (56320 + n mod 1024)
  end.
Definition quoted (enc : N -> str) (s : str) : str := 34 :: flat_map enc s ++ [34].

Section Dump.
(** How a character is written, what follows a bracket or a separator at a level of nesting,
    and the separator of items. *)
Variables (enc : N -> str) (nl : nat -> str) (sep : str).
(** json/encoder.py, _make_iterencode.  Simplifications: no floats (they do not occur); the
    limit of CPython to 4300 digits for the text of a number is left out. *)
Fixpoint dump (level : nat) (j : json) : str :=
  match j with
  | JNull => utf8 "null"
  | JBool true => utf8 "true"
  | JBool false => utf8 "false"
  | JInt z => str_of_Z z
  | JStr s => quoted enc s
  | JList [] => utf8 "[]"
  | JList l => [91] ++ nl (S level) ++ join (sep ++ nl (S level)) (map (dump (S level)) l) ++ nl level ++ [93]
  | JObj [] => utf8 "{}"
  | JObj l =>
      [123] ++ nl (S level)
      ++ join (sep ++ nl (S level)) (map (fun p => quoted enc (fst p) ++ utf8 ": " ++ dump (S level) (snd p)) l)
      ++ nl level ++ [125]
  end.
End Dump.

(** json.dump(..., indent=2, ensure_ascii=False), writer.py:102 *)
Definition newline_indent (level : nat) : str := 10 :: repeat 32 (level + level).
Definition dump_pretty (j : json) : str := dump enc_char newline_indent [44] 0 j.
(** The text of the JSON file. *)
Definition file_text (d : model) : str := dump_pretty (model_json d).
(** json.dumps(...), app.py:57 *)
Definition dumps (j : json) : str := dump enc_char_ascii (fun _ => []) [44; 32] 0 j.

(** ** Reading *)

(** A reader of JSON texts by recursive descent, in the way of json.loads and JSON.parse.
    Simplification: numbers with a fraction or an exponent are not read. *)
Definition is_ws (c : N) : bool := (c =? 32) || (c =? 9) || (c =? 10) || (c =? 13).
Definition skip_ws (s : str) : str := drop_while is_ws s.
Definition is_dig (c : N) : bool := (48 <=? c) && (c <=? 57).
Definition dec_val (s : str) : N := fold_left (fun n c => 10 * n + (c - 48)) s 0.

Definition hex_val (c : N) : option N :=
  if (48 <=? c) && (c <=? 57) then Some (c - 48)
  else if (97 <=? c) && (c <=? 102) then Some (c - 87)
  else if (65 <=? c) && (c <=? 70) then Some (c - 55)
  else None.
Definition read_hex4 (s : str) : option (N * str) :=
  match s with
  | a :: b :: c :: d :: r =>
      match hex_val a, hex_val b, hex_val c, hex_val d with
      | Some a, Some b, Some c, Some d => Some (4096 * a + 256 * b + 16 * c + d, r)
      | _, _, _, _ => None
      end
  | _ => None
  end.
Definition unescape (e : N) : option N :=
  if e =? 34 then Some 34 else if e =? 92 then Some 92 else if e =? 47 then Some 47
  else if e =? 98 then Some 8 else if e =? 102 then Some 12 else if e =? 110 then Some 10
  else if e =? 114 then Some 13 else if e =? 116 then Some 9 else None.
Definition is_high (n : N) : bool := (55296 <=? n) && (n <=? 56319).
Definition is_low (n : N) : bool := (56320 <=? n) && (n <=? 57343).
(** A \uXXXX escape of a low surrogate. *)
Definition low_escape (s : str) : option (N * str) :=
  match s with
  | a :: b :: t =>
      if (a =? 92) && (b =? 117) then
        match read_hex4 t with Some (n, r) => if is_low n then Some (n, r) else None | None => None end
      else None
  | _ => None
  end.
(** The characters up to the closing quote, and what follows it. *)
Fixpoint read_chars (fuel : nat) (s : str) : option (str * str) :=
  match fuel with
  | O => None
  | S f =>
      let cons c r := match read_chars f r with Some (t, r') => Some (c :: t, r') | None => None end in
      match s with
      | [] => None
      | c :: r =>
          if c =? 34 then Some ([], r)
          else if c =? 92 then
            match r with
            | [] => None
            | e :: r' =>
                if e =? 117 then
                  match read_hex4 r' with
                  | None => None
                  | Some (n, r'') =>
                      match (if is_high n then low_escape r'' else None) with
                      | Some (m, r3) => cons (65536 + 1024 * (n - 55296) + (m - 56320)) r3
                      | None => cons n r''
                      end
                  end
                else match unescape e with Some c => cons c r' | None => None end
            end
          else if c <? 32 then None
          else cons c r
      end
  end.
(** A number: digits without a leading zero, perhaps after a minus sign. *)
Definition read_nat (s : str) : option (N * str) :=
  match take_while is_dig s with
  | [] => None
  | c :: ds => if (c =? 48) && negb (seqb ds []) then None else Some (dec_val (c :: ds), drop_while is_dig s)
  end.
Definition read_int (s : str) : option (Z * str) :=
  match s with
  | c :: r =>
      if c =? 45 then match read_nat r with Some (n, r') => Some (Z.opp (Z.of_N n), r') | None => None end
      else match read_nat s with Some (n, r') => Some (Z.of_N n, r') | None => None end
  | [] => None
  end.
Definition read_word (w : string) (j : json) (s : str) : option (json * str) :=
  if startswith (utf8 w) s then Some (j, skipn (List.length (utf8 w)) s) else None.

Fixpoint read_value (fuel : nat) (s : str) : option (json * str) :=
  match fuel with
  | O => None
  | S f =>
      match s with
      | [] => None
      | c :: r =>
          if c =? 34 then
            match read_chars (S (List.length r)) r with Some (t, r') => Some (JStr t, r') | None => None end
          else if c =? 91 then
            match skip_ws r with
            | [] => None
            | c' :: r' =>
                if c' =? 93 then Some (JList [], r')
                else match read_elems f (c' :: r') with Some (l, r'') => Some (JList l, r'') | None => None end
            end
          else if c =? 123 then
            match skip_ws r with
            | [] => None
            | c' :: r' =>
                if c' =? 125 then Some (JObj [], r')
                else match read_members f (c' :: r') with Some (l, r'') => Some (JObj l, r'') | None => None end
            end
          else if c =? 110 then read_word "null" JNull s
          else if c =? 116 then read_word "true" (JBool true) s
          else if c =? 102 then read_word "false" (JBool false) s
          else match read_int s with Some (z, r') => Some (JInt z, r') | None => None end
      end
  end
(** elements up to the closing bracket *)
with read_elems (fuel : nat) (s : str) : option (list json * str) :=
  match fuel with
  | O => None
  | S f =>
      match read_value f (skip_ws s) with
      | None => None
      | Some (v, r) =>
          match skip_ws r with
          | c :: r' =>
              if c =? 93 then Some ([v], r')
              else if c =? 44 then
                match read_elems f r' with Some (l, r'') => Some (v :: l, r'') | None => None end
              else None
          | [] => None
          end
      end
  end
(** members up to the closing brace *)
with read_members (fuel : nat) (s : str) : option (list (str * json) * str) :=
  match fuel with
  | O => None
  | S f =>
      match skip_ws s with
      | q :: r =>
          if q =? 34 then
            match read_chars (S (List.length r)) r with
            | None => None
            | Some (k, r1) =>
                match skip_ws r1 with
                | col :: r2 =>
                    if col =? 58 then
                      match read_value f (skip_ws r2) with
                      | None => None
                      | Some (v, r3) =>
                          match skip_ws r3 with
                          | c :: r4 =>
                              if c =? 125 then Some ([(k, v)], r4)
                              else if c =? 44 then
                                match read_members f r4 with Some (l, r5) => Some ((k, v) :: l, r5) | None => None end
                              else None
                          | [] => None
                          end
                      end
                    else None
                | [] => None
                end
            end
          else None
      | [] => None
      end
  end.
(** The whole text.  [None]: it is not JSON (an exception).  An object with a repeated key
    keeps both members here. *)
Definition loads (s : str) : option json :=
  match read_value (S (S (List.length s + List.length s))) (skip_ws s) with
  | Some (j, r) => match skip_ws r with [] => Some j | _ => None end
  | None => None
  end.
