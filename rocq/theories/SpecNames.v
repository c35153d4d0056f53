(** Independent vocabulary for the texts taken from cells: normalised labels, moved numbers and
    briefs. *)
From Coq Require Import NArith List Bool.
From Verif Require Import PyStr SpecText SpecLabel SpecHeader.
Import ListNotations.
Local Open Scope list_scope.
Local Open Scope N_scope.

(** [t] with pairs of '_', from left to right, made one '_'. *)
Inductive unpaired : str -> str -> Prop :=
| up_end : unpaired [] []
| up_pair s t : unpaired s t -> unpaired (95 :: 95 :: s) (95 :: t)
| up_one c s t : c <> 95 \/ ~ begins (is_char 95) s -> unpaired s t -> unpaired (c :: s) (c :: t).
(** Spaces and '-' are written '_', and '/' is left out. *)
Definition joined (s : str) : str :=
  flat_map (fun c => if (c =? 32) || (c =? 45) then [95] else if c =? 47 then [] else [c]) s.
(** The label [s] is normalised to [l]. *)
Definition normal (s l : str) : Prop :=
  exists t u, trims_to s t /\ unpaired (joined t) u /\ l = upper u.

(** [t] is [s] without the characters [c] at its ends. *)
Definition peeled (c : N) (s t : str) : Prop :=
  ~ begins (is_char c) t /\ ~ begins (is_char c) (rev t)
  /\ exists i j, s = repeat c i ++ t ++ repeat c j.
(** A number at the beginning of the label [s] is moved to the end of its first line, after a '_';
    '_' at the ends are left out, and so are the other lines. *)
Inductive moved : str -> str -> Prop :=
| mv_none s : ~ begins isdigit s -> moved s s
| mv_number d line after u v :
    numeral d -> ~ begins isdigit (line ++ after) -> ~ In 10 line -> after = [] \/ begins (is_char 10) after ->
    peeled 95 line u -> peeled 95 (u ++ [95] ++ d) v -> moved (d ++ line ++ after) v.

(** [b] is [s] without the dots at its end and then without the spaces at its beginning. *)
Definition plain_rest (s b : str) : Prop :=
  exists i j, s = repeat 32 i ++ b ++ repeat 46 j /\ ~ begins (is_char 32) b /\ ~ begins (is_char 46) (rev (repeat 32 i ++ b)).
(** [u] is the part of [s] before its first dot, or all of it. *)
Definition first_sentence (s u : str) : Prop :=
  ~ In 46 u /\ (s = u \/ exists r, s = u ++ 46 :: r).
(** The brief told by the content [t]: what follows name, acronym and ':', if it is not longer
    than 60 characters, else its first sentence, if that is not. *)
Inductive brief_told (t : str) : option str -> Prop :=
| bt_none name acr rest : struct_text t name acr rest -> ~ In 58 t \/ rest = [] -> brief_told t None
| bt_short name acr rest b :
    struct_text t name acr rest -> In 58 t -> rest <> [] -> plain_rest rest b ->
    N.of_nat (length b) <= 60 -> brief_told t (Some b)
| bt_sentence name acr rest b u :
    struct_text t name acr rest -> In 58 t -> rest <> [] -> plain_rest rest b ->
    N.of_nat (length b) > 60 -> first_sentence b u -> N.of_nat (length u) <= 60 -> brief_told t (Some u)
| bt_long name acr rest b u :
    struct_text t name acr rest -> In 58 t -> rest <> [] -> plain_rest rest b ->
    N.of_nat (length b) > 60 -> first_sentence b u -> N.of_nat (length u) > 60 -> brief_told t None.
