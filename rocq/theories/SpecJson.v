(** The grammar of JSON texts (RFC 8259), with the value a text stands for.  Numbers with a
    fraction or an exponent are left out. *)
From Coq Require Import NArith ZArith List Bool String.
From Verif Require Import PyStr Json.
Import ListNotations.
Local Open Scope string_scope.
Local Open Scope list_scope.
Local Open Scope N_scope.

(** White space: blanks, tabs, line feeds, carriage returns. *)
Definition ws (s : str) : Prop := Forall (fun c => In c [32; 9; 10; 13]) s.

(** A hexadecimal digit in either case; four of them. *)
Definition hexdigit (c n : N) : Prop :=
  48 <= c <= 57 /\ n = c - 48 \/ 97 <= c <= 102 /\ n = c - 87 \/ 65 <= c <= 70 /\ n = c - 55.
Definition hex16 (s : str) (n : N) : Prop :=
  exists a b c d a' b' c' d', s = [a; b; c; d]
    /\ hexdigit a a' /\ hexdigit b b' /\ hexdigit c c' /\ hexdigit d d'
    /\ n = 4096 * a' + 256 * b' + 16 * c' + d'.
Definition high_surrogate (n : N) : Prop := 55296 <= n <= 56319.
Definition low_surrogate (n : N) : Prop := 56320 <= n <= 57343.
(** The two character escapes: quote, backslash, slash, b, f, n, r, t. *)
Definition escapes : list (N * N) :=
  [(34, 34); (92, 92); (47, 47); (98, 8); (102, 12); (110, 10); (114, 13); (116, 9)].

(** The text between the quotes, and the characters it stands for. *)
Inductive jchars : str -> str -> Prop :=
| jc_nil : jchars [] []
| jc_plain c t s : 32 <= c -> c <> 34 -> c <> 92 -> jchars t s -> jchars (c :: t) (c :: s)
| jc_escape e c t s : In (e, c) escapes -> jchars t s -> jchars (92 :: e :: t) (c :: s)
| jc_unicode h n t s :
    hex16 h n ->
    ~ (high_surrogate n /\ exists h' n' t', t = 92 :: 117 :: h' ++ t' /\ hex16 h' n' /\ low_surrogate n') ->
    jchars t s -> jchars (92 :: 117 :: h ++ t) (n :: s)
| jc_pair h n h' n' t s :
    hex16 h n -> high_surrogate n -> hex16 h' n' -> low_surrogate n' -> jchars t s ->
    jchars (92 :: 117 :: h ++ 92 :: 117 :: h' ++ t) (65536 + 1024 * (n - 55296) + (n' - 56320) :: s).
Inductive jstring : str -> str -> Prop :=
| js_quoted t s : jchars t s -> jstring (34 :: t ++ [34]) s.

(** Decimal digits without a leading zero, and their number. *)
Definition jnat (s : str) (n : N) : Prop :=
  s <> [] /\ Forall (fun c => 48 <= c <= 57) s /\ (forall r, s = 48 :: r -> r = [])
  /\ n = fold_left (fun n c => 10 * n + (c - 48)) s 0.
Inductive jint : str -> Z -> Prop :=
| ji_pos s n : jnat s n -> jint s (Z.of_N n)
| ji_neg s n : jnat s n -> jint (45 :: s) (- Z.of_N n)%Z.

(** Values; the elements of an array; the members of an object. *)
Inductive jvalue : str -> json -> Prop :=
| jv_null : jvalue (utf8 "null") JNull
| jv_true : jvalue (utf8 "true") (JBool true)
| jv_false : jvalue (utf8 "false") (JBool false)
| jv_int s z : jint s z -> jvalue s (JInt z)
| jv_string t s : jstring t s -> jvalue t (JStr s)
| jv_empty w : ws w -> jvalue (91 :: w ++ [93]) (JList [])
| jv_array t l : jelems t l -> jvalue (91 :: t ++ [93]) (JList l)
| jv_no_members w : ws w -> jvalue (123 :: w ++ [125]) (JObj [])
| jv_object t l : jmembers t l -> jvalue (123 :: t ++ [125]) (JObj l)
with jelems : str -> list json -> Prop :=
| je_last a t b v : ws a -> jvalue t v -> ws b -> jelems (a ++ t ++ b) [v]
| je_more a t b v r l : ws a -> jvalue t v -> ws b -> jelems r l -> jelems (a ++ t ++ b ++ 44 :: r) (v :: l)
with jmembers : str -> list (str * json) -> Prop :=
| jm_last a k key b c t v d :
    ws a -> jstring k key -> ws b -> ws c -> jvalue t v -> ws d ->
    jmembers (a ++ k ++ b ++ 58 :: c ++ t ++ d) [(key, v)]
| jm_more a k key b c t v d r l :
    ws a -> jstring k key -> ws b -> ws c -> jvalue t v -> ws d -> jmembers r l ->
    jmembers (a ++ k ++ b ++ 58 :: c ++ t ++ d ++ 44 :: r) ((key, v) :: l).

(** A JSON text. *)
Definition json_text (s : str) (j : json) : Prop :=
  exists a t b, s = a ++ t ++ b /\ ws a /\ ws b /\ jvalue t j.

(** No object in the value has the same key twice. *)
Fixpoint distinct_keys (j : json) : Prop :=
  match j with
  | JList l => (fix all (l : list json) := match l with [] => True | a :: r => distinct_keys a /\ all r end) l
  | JObj l =>
      NoDup (map fst l)
      /\ (fix all (l : list (str * json)) := match l with [] => True | p :: r => distinct_keys (snd p) /\ all r end) l
  | _ => True
  end.
