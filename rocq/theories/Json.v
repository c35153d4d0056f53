(** JSON values (src/spex/jsonspec/defs.py:24, type JSON). *)
From Coq Require Import NArith ZArith List Bool String.
From Verif Require Import PyStr.
Import ListNotations.

(** Objects are association lists in insertion order.  Floats do not occur. *)
Inductive json :=
| JNull
| JBool (b : bool)
| JInt (z : Z)
| JStr (s : str)
| JList (l : list json)
| JObj (l : list (str * json)).

(** Lookup of a key ([d.get(k)]). *)
Definition jget (k : str) (l : list (str * json)) : option json :=
  match find (fun p => seqb (fst p) k) l with Some p => Some (snd p) | None => None end.
