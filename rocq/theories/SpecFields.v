(** Independent specification of the checks on a finished field list. *)
From Coq Require Import NArith ZArith List Bool String.
From Verif Require Import PyStr Json Lint.
Import ListNotations.
Local Open Scope list_scope.
Local Open Scope N_scope.

(** The two special labels (src/spex/jsonspec/defs.py:53-54). *)
Definition lbl_reserved : str := utf8 "RESERVED".
Definition lbl_ellipsis : str := [8230].

Definition plain (lbl : str) : Prop := lbl <> lbl_reserved /\ lbl <> lbl_ellipsis.

(** A field taking part in range checks: not an ellipsis row and its range was understood
    (numbers or a formula). *)
Definition ranged (f : sfield) : Prop :=
  sf_label f <> lbl_ellipsis /\ forall s, sf_range f <> RText s.

(** A field with numeric bounds that is not an ellipsis row. *)
Definition numeric (f : sfield) (lo hi : Z) : Prop :=
  sf_label f <> lbl_ellipsis /\ sf_range f = RInt lo hi.

(** The row key under which lint for a field is filed: the low bound, or the text. *)
Definition key_of (f : sfield) (key : str) : Prop :=
  match sf_range f with
  | RInt lo _ => key = str_of_Z lo
  | RDyn lo _ => key = lo
  | RText s => key = s
  end.

(** Rows out of order, as the code checks it: inside a stretch of ranged fields (a stretch
    begins at the start of the list or right after a field that is not ranged) some field
    starts below the first field of the stretch. *)
Definition out_of_order (fs : list sfield) : Prop :=
  exists before first mid f after a b ha hb,
    fs = before ++ first :: mid ++ f :: after
    /\ (before = [] \/ exists l g, before = l ++ [g] /\ ~ ranged g)
    /\ Forall ranged mid
    /\ numeric first a ha /\ numeric f b hb /\ (b < a)%Z.

(** Neighbouring fields [p], [q] overlap / leave a gap. *)
Definition overlap (p q : sfield) : Prop :=
  exists lp hp lq hq, numeric p lp hp /\ numeric q lq hq /\ (lq <= hp)%Z.
Definition gap (p q : sfield) : Prop :=
  exists lp hp lq hq, numeric p lp hp /\ numeric q lq hq /\ (hp + 1 < lq)%Z.

(** Each field starts right after its predecessor. *)
Inductive contiguous : list sfield -> Prop :=
| cont_nil : contiguous []
| cont_one f : contiguous [f]
| cont_step p q r lp hp lq hq :
    sf_range p = RInt lp hp -> sf_range q = RInt lq hq -> lq = (hp + 1)%Z ->
    contiguous (q :: r) -> contiguous (p :: q :: r).

(** The offset [z] belongs to the field. *)
Definition covers (f : sfield) (z : Z) : Prop :=
  exists lo hi, sf_range f = RInt lo hi /\ (lo <= z <= hi)%Z.

(** Every offset between the first low and the last high belongs to exactly one field. *)
Definition partition (fs : list sfield) : Prop :=
  forall first last_ lo0 hi0 lo1 hi1 r,
    fs = first :: r -> last fs first = last_ ->
    sf_range first = RInt lo0 hi0 -> sf_range last_ = RInt lo1 hi1 ->
    forall z, (lo0 <= z <= hi1)%Z ->
      exists a f b, fs = a ++ f :: b /\ covers f z /\ Forall (fun g => ~ covers g z) (a ++ b).

(** ** Lists of what is to be reported *)

(** Neighbouring pairs, in order. *)
Definition neighbours {A} (fs : list A) : list (A * A) := combine fs (tl fs).

(** Every element with the elements before it. *)
Fixpoint with_earlier {A} (before fs : list A) : list (list A * A) :=
  match fs with [] => [] | f :: r => (before, f) :: with_earlier (before ++ [f]) r end.

Definition is_ellipsis (f : sfield) : bool := seqb (sf_label f) lbl_ellipsis.

Definition overlapping (pq : sfield * sfield) : bool :=
  let (p, q) := pq in
  match sf_range p, sf_range q with
  | RInt _ hp, RInt lq _ => negb (is_ellipsis p) && negb (is_ellipsis q) && (lq <=? hp)%Z
  | _, _ => false
  end.

Definition gapping (pq : sfield * sfield) : bool :=
  let (p, q) := pq in
  match sf_range p, sf_range q with
  | RInt _ hp, RInt lq _ => negb (is_ellipsis p) && negb (is_ellipsis q) && (hp + 1 <? lq)%Z
  | _, _ => false
  end.

Definition plainb (l : str) : bool := negb (seqb l lbl_reserved) && negb (seqb l lbl_ellipsis).

(** Has an earlier field with the same, not special, label. *)
Definition repeated_label (bf : list sfield * sfield) : bool :=
  let (before, f) := bf in
  plainb (sf_label f) && existsb (fun g => seqb (sf_label g) (sf_label f)) before.

(** The key of the row with a range: its lower offset or its text. *)
Definition key_of_range (r : range) : str :=
  match r with RInt lo _ => str_of_Z lo | RDyn lo _ => lo | RText s => s end.
Definition field_key (f : sfield) : str :=
  match sf_range f with RInt lo _ => str_of_Z lo | RDyn lo _ => lo | RText s => s end.

(** The lint entry for a row of figure [fig]. *)
Definition row_lint (c : code) (fig key : str) (ctx : list (str * json)) : lint :=
  mkLint c fig (code_msg c) (Some key) ctx.

(** The entries with a given code. *)
Definition of_code (c : code) (l : list lint) : list lint :=
  filter (fun e => code_eqb (l_code e) c) l.

(** Value tables: an earlier field that is not special has the same label / value. *)
Definition repeated_vlabel (bf : list vfield * vfield) : bool :=
  let (before, f) := bf in
  plainb (vf_label f)
  && existsb (fun g => plainb (vf_label g) && seqb (vf_label g) (vf_label f)) before.
Definition repeated_value (bf : list vfield * vfield) : bool :=
  let (before, f) := bf in
  plainb (vf_label f)
  && existsb (fun g => plainb (vf_label g) && seqb (vf_val g) (vf_val f)) before.
