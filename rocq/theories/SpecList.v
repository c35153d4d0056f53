(** Independent vocabulary for the properties about lists in docx documents. *)
From Coq Require Import NArith ZArith List Bool String.
From Verif Require Import PyStr Docx SpecQuery SpecRuns.
Import ListNotations.
Local Open Scope string_scope.
Local Open Scope list_scope.

Section Lists.
Variable d : docx.

(** The number of the list a paragraph is in, and its level. *)
Definition list_number (p : welem) (n : Z) : Prop := first_number ["w:pPr"; "w:numPr"; "w:numId"] "w:val" p n.
Definition list_level (p : welem) (i : Z) : Prop := first_number ["w:pPr"; "w:numPr"; "w:ilvl"] "w:val" p i.
(** The document has a numbering in which the list number [n] occurs. *)
Definition known_list (n : Z) : Prop := exists m, dx_num d = Some m /\ In n (map fst (n_nums m)).
(** The list number [n] has the abstract numbering [a], which has the levels [ls].  Number 0 has
    none. *)
Definition numbered (n a : Z) (ls : list lvl) : Prop :=
  n <> 0%Z /\ exists m, dx_num d = Some m /\ first_with (fun x => fst x = n) (n_nums m) (n, a)
    /\ first_with (fun x => fst x = a) (n_abs m) (a, ls).
(** [p] is not in a list: it has no number, there is no numbering, or the number does not occur
    in it. *)
Definition not_listed (p : welem) : Prop :=
  no_value ["w:pPr"; "w:numPr"; "w:numId"] "w:val" p \/ dx_num d = None \/ exists n, list_number p n /\ ~ known_list n.
(** [p] is a paragraph of the list (abstract numbering) [a], on level [i]. *)
Definition list_par (p : welem) (a i : Z) : Prop :=
  w_tag p = utf8 "w:p" /\ (exists n ls, list_number p n /\ numbered n a ls) /\ list_level p i.
(** The properties of the level of [p]: those its list has for this level, by position (from the
    end if it is negative). *)
Definition level_at {A} (ls : list A) (i : Z) (l : A) : Prop :=
  if (0 <=? i)%Z then nth_error ls (Z.to_nat i) = Some l
  else (- i <= Z.of_nat (List.length ls))%Z /\ nth_error ls (List.length ls - Z.to_nat (- i)) = Some l.
Definition level_props (p : welem) (l : lvl) : Prop :=
  exists n a ls i, list_number p n /\ numbered n a ls /\ list_level p i /\ level_at ls i l.

(** An open list: its level, its properties, and the number of its first item (counted from the
    beginning of the outermost list). *)
Record opened := mkOpen { o_level : Z; o_props : lvl; o_first : nat }.
(** The lists that remain open for a paragraph on level [i], innermost first: those of deeper
    levels are closed. *)
Fixpoint close (i : Z) (open : list opened) : list opened :=
  match open with
  | [] => []
  | o :: r => if (i <? o_level o)%Z then close i r else open
  end.
(** The paragraphs [ps], the first of which is item number [n], with the lists [open]: for each
    paragraph the lists around it, outermost first, and its text. *)
Inductive outline (a : Z) : nat -> list opened -> list welem -> list (list (lvl * nat) * list span) -> list opened -> Prop :=
| ol_nil n open : outline a n open [] [] open
| ol_item n open p i sps o rest ps out open' : list_par p a i -> par_spans d p sps ->
    close i open = o :: rest -> o_level o = i -> outline a (S n) (o :: rest) ps out open' ->
    outline a n open (p :: ps) ((map (fun o => (o_props o, o_first o)) (List.rev (o :: rest)), sps) :: out) open'
| ol_open n open p i sps o rest l ps out open' : list_par p a i -> par_spans d p sps ->
    close i open = o :: rest -> (o_level o < i)%Z -> level_props p l ->
    outline a (S n) (mkOpen i l n :: o :: rest) ps out open' ->
    outline a n open (p :: ps) ((map (fun o => (o_props o, o_first o)) (List.rev (mkOpen i l n :: o :: rest)), sps) :: out) open'.

(** Lists on strictly increasing levels, innermost first. *)
Inductive descending : list opened -> Prop :=
| desc_nil : descending []
| desc_one o : descending [o]
| desc_cons o o' r : (o_level o' < o_level o)%Z -> descending (o' :: r) -> descending (o :: o' :: r).

(** The rest of the stream does not continue the list [a] on level [i] or deeper. *)
Definition ends_list (a i : Z) (st : list welem) : Prop :=
  match st with
  | [] => True
  | p :: _ => w_tag p <> utf8 "w:p" \/ not_listed p \/ (exists j, list_par p a j /\ (j < i)%Z)
              \/ exists n b ls, list_number p n /\ numbered n b ls /\ b <> a
  end.
End Lists.

(** The items of a tree of lists in order, each with the lists around it (with the number of
    their first item), outermost first. *)
Fixpoint item_places (chain : list (lvl * nat)) (n : nat) (i : litem) : list (list (lvl * nat) * list span) :=
  match i with
  | LItem sps => [(chain, sps)]
  | LSub l its =>
      (fix go (m : nat) (its : list litem) :=
         match its with
         | [] => []
         | i :: r => let o := item_places (chain ++ [(l, n)]) m i in o ++ go (m + List.length o)%nat r
         end) n its
  end.
Fixpoint places (chain : list (lvl * nat)) (n : nat) (its : list litem) : list (list (lvl * nat) * list span) :=
  match its with
  | [] => []
  | i :: r => let o := item_places chain n i in o ++ places chain (n + List.length o) r
  end.
(** Every nested list begins with an item. *)
Inductive begun : litem -> Prop :=
| bg_item sps : begun (LItem sps)
| bg_sub l sps its : Forall begun its -> begun (LSub l (LItem sps :: its)).
