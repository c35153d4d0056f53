(** A backtracking matcher for the fragment of Python's [re] used by /repo, with Python's
    greedy and leftmost-alternative semantics.  Patterns are data.  All repetition in
    /repo's patterns is over a single character class, so [RStar]/[RPlus] take a class. *)
From Coq Require Import NArith List Bool.
From Verif Require Import PyStr.
Import ListNotations.
Local Open Scope N_scope.

(** One item of a character class. *)
Inductive citem :=
| CI (c : N)              (* a literal character *)
| CR (a b : N)            (* a range a-b *)
| CW | CS | CD.           (* \w \s \d *)

Definition citem_ok (i : citem) (c : N) : bool :=
  match i with
  | CI x => c =? x
  | CR a b => (a <=? c) && (c <=? b)
  | CW => isword c
  | CS => isspace c
  | CD => isdigit c
  end.

(** A character class: [Cls] = [...], [NCls] = [^...], [Any] = . with DOTALL,
    [AnyNL] = . without DOTALL. *)
Inductive cls := Cls (l : list citem) | NCls (l : list citem) | Any | AnyNL.

Definition cls_ok (k : cls) (c : N) : bool :=
  match k with
  | Cls l => existsb (fun i => citem_ok i c) l
  | NCls l => negb (existsb (fun i => citem_ok i c) l)
  | Any => true
  | AnyNL => negb (c =? 10)
  end.

Inductive re :=
| REps
| RChr (k : cls)
| RStar (k : cls)         (* greedy k* *)
| RPlus (k : cls)         (* greedy k+ *)
| ROpt (r : re)           (* greedy r? *)
| RSeq (a b : re)
| RAlt (a b : re)
| RGrp (n : N) (r : re)   (* capturing group number n *)
| RBol                    (* ^ without MULTILINE *)
| REol.                   (* $ without MULTILINE *)

(** Captured groups, most recent first. *)
Definition caps := list (N * str).
Definition group (n : N) (g : caps) : option str :=
  match find (fun p => fst p =? n) g with Some p => Some (snd p) | None => None end.

(** Greedy repetition: longest first, giving back one character at a time.
    [k b r] continues at rest [r]; [b] tells whether the position is the text start. *)
Fixpoint star_loop {A} (p : N -> bool) (b : bool) (s : str)
    (k : bool -> str -> option A) : option A :=
  match s with
  | c :: r =>
      if p c then
        match star_loop p false r k with Some x => Some x | None => k b s end
      else k b s
  | [] => k b []
  end.

(** The text between the position with rest [s0] and the later one with rest [s1]. *)
Definition between (s0 s1 : str) : str := firstn (length s0 - length s1) s0.

(** [mt r b s g k]: match [r] at rest [s] ([b]: at text start), then continue with [k]. *)
Fixpoint mt {A} (r : re) (b : bool) (s : str) (g : caps)
    (k : bool -> str -> caps -> option A) {struct r} : option A :=
  match r with
  | REps => k b s g
  | RChr c => match s with x :: t => if cls_ok c x then k false t g else None | [] => None end
  | RStar c => star_loop (cls_ok c) b s (fun b' t => k b' t g)
  | RPlus c =>
      match s with
      | x :: t => if cls_ok c x then star_loop (cls_ok c) false t (fun b' t => k b' t g) else None
      | [] => None
      end
  | ROpt r1 => match mt r1 b s g k with Some x => Some x | None => k b s g end
  | RSeq r1 r2 => mt r1 b s g (fun b' t g' => mt r2 b' t g' k)
  | RAlt r1 r2 => match mt r1 b s g k with Some x => Some x | None => mt r2 b s g k end
  | RGrp n r1 => mt r1 b s g (fun b' t g' => k b' t ((n, between s t) :: g'))
  | RBol => if b then k b s g else None
  | REol => match s with
            | [] => k b s g
            | [x] => if x =? 10 then k b s g else None
            | _ => None
            end
  end.

(** [pattern.match(s)]: anchored at the start, not at the end. *)
Definition re_match (r : re) (s : str) : option caps :=
  mt r true s [] (fun _ _ g => Some g).

(** [pattern.search(s)]: first position where the pattern matches. *)
Fixpoint search_from (r : re) (b : bool) (s : str) : option caps :=
  match mt r b s [] (fun _ _ g => Some g) with
  | Some g => Some g
  | None => match s with [] => None | _ :: t => search_from r false t end
  end.
Definition re_search (r : re) (s : str) : option caps := search_from r true s.

(** Sequence of a list of patterns. *)
Fixpoint rseq (l : list re) : re :=
  match l with [] => REps | [r] => r | r :: t => RSeq r (rseq t) end.

(** A literal string as a pattern. *)
Definition rlit (s : str) : re := rseq (map (fun c => RChr (Cls [CI c])) s).
