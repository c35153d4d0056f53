(** Independent vocabulary for the properties of the report page. *)
From Coq Require Import NArith ZArith List Bool String Sorted.
From Verif Require Import PyStr PyStrFacts Xml Json Lint Output SpecText Report.
Import ListNotations.
Local Open Scope list_scope.
Local Open Scope N_scope.

(** No entry has a code that is empty or a name every JavaScript object has. *)
Definition plain_codes (lint : list entry) : Prop :=
  Forall (fun e => le_code e <> [] /\ ~ In (le_code e) inherited) lint.
Definition plain_figures (lint : list entry) : Prop :=
  Forall (fun e => ~ In (le_fig e) inherited) lint.

(** The number of entries with code [c]. *)
Definition occurrences (c : str) (lint : list entry) : N :=
  N.of_nat (count_occ str_eq_dec (map le_code lint) c).
(** The first entry with code [c] has message [m]. *)
Definition first_message (c m : str) (lint : list entry) : Prop :=
  exists A e B, lint = A ++ e :: B /\ le_code e = c /\ le_msg e = m /\ Forall (fun a => le_code a <> c) A.

(** After these clicks the row with code [c] is selected: it was clicked an odd number of times
    since all filters were cleared for the last time. *)
Fixpoint clicks_on (c : str) (cs : list click) : nat :=
  match cs with
  | [] => 0
  | ClickRow c' :: r => if str_eq_dec c' c then S (clicks_on c r) else clicks_on c r
  | ClickClear :: r => clicks_on c r
  end.
Definition chosen (c : str) (cs : list click) : Prop :=
  exists before since, cs = before ++ since /\ ~ In ClickClear since
    /\ (before = [] \/ exists b, before = b ++ [ClickClear])
    /\ Nat.Odd (clicks_on c since).
(** The entry is to be shown: its code is chosen, or no code of any entry is. *)
Definition to_show (lint : list entry) (cs : list click) (e : entry) : Prop :=
  chosen (le_code e) cs \/ forall e', In e' lint -> ~ chosen (le_code e') cs.

(** [l'] consists of the elements of [l] with property [Q], in order. *)
Inductive those {A} (Q : A -> Prop) : list A -> list A -> Prop :=
| those_nil : those Q [] []
| those_keep a l l' : Q a -> those Q l l' -> those Q (a :: l) (a :: l')
| those_drop a l l' : ~ Q a -> those Q l l' -> those Q (a :: l) l'.

(** The decimal digits [s], perhaps with leading zeros, stand for [n]. *)
Definition decimal (s : str) (n : N) : Prop :=
  s <> [] /\ Forall (fun c => 48 <= c <= 57) s /\ dec_value s = n.
(** The text stands for [n]: decimal digits between blanks. *)
Definition reads_number (v : str) (n : N) : Prop :=
  exists l s r, v = l ++ s ++ r /\ decimal s n
    /\ Forall (fun c => In c [32; 9; 10; 13]) l /\ Forall (fun c => In c [32; 9; 10; 13]) r.
(** The id of a top-level figure: what precedes the first underscore. *)
Definition top_id (fig f : str) : Prop :=
  ~ In 95 f /\ (fig = f \/ exists r, fig = f ++ 95 :: r).
(** [t] is the first table in the body of [doc] whose id stands for [n]. *)
Definition id_number (t : elem) (n : N) : Prop := exists v, attr (utf8 "id") t = Some v /\ reads_number v n.
Definition body_tables (doc : elem) : list elem := flat_map (children (utf8 "table")) (children (utf8 "body") doc).
Definition first_table (doc : elem) (n : N) (t : elem) : Prop :=
  exists A B, body_tables doc = A ++ t :: B /\ id_number t n /\ Forall (fun a => ~ id_number a n) A.
