(** Independent vocabulary for the properties of the upload page. *)
From Coq Require Import NArith ZArith List Bool String.
From Verif Require Import PyStr Json Output Server Client.
Import ListNotations.
Local Open Scope string_scope.
Local Open Scope list_scope.

(** The bytes of a stream of events. *)
Definition stream (es : list sevent) : bytes := flat_map sse es.
(** A division of a stream into chunks, as the network delivers it. *)
Definition division (chunks : list bytes) (es : list sevent) : Prop := List.concat chunks = stream es.
(** The positions where a division cuts, the first chunk starting at [o]. *)
Fixpoint cuts (o : nat) (chunks : list bytes) : list nat :=
  match chunks with
  | [] => []
  | c :: r => let o' := (o + List.length c)%nat in o' :: cuts o' r
  end.
(** The events whose line has no cut inside, the first event starting at [o].  An event ends
    with two line feeds, which are not part of its line. *)
Fixpoint intact (at_ : list nat) (o : nat) (es : list sevent) : list sevent :=
  match es with
  | [] => []
  | e :: r =>
      let n := List.length (sse e) in
      if existsb (fun c => Nat.ltb o c && Nat.ltb c (o + n - 2)) at_ then intact at_ (o + n) r
      else e :: intact at_ (o + n) r
  end.

(** What the page should show of an event: the phase's bar follows it; the docx stage is over
    when the second phase begins; at the end both are full. *)
Definition shown (pg : page) (e : sevent) : page :=
  match e with
  | Progress (PHtml, i, total) => mkPage (num (Z.of_N i), num (Z.of_N total)) (pg_json pg) (pg_processing pg) (pg_url pg)
  | Progress (PJson, i, total) => mkPage (num 100, num 100) (num (Z.of_N i), num (Z.of_N total)) (pg_processing pg) (pg_url pg)
  | Completed h => mkPage (num 100, num 100) (num 100, num 100) false (utf8 "/report/" ++ h)
  end.

(** A hexadecimal number, as the digests are. *)
Definition hexadecimal (h : str) : Prop := Forall (fun c => (48 <= c <= 57 \/ 97 <= c <= 102)%N) h.
Definition proper_event (e : sevent) : Prop := match e with Completed h => hexadecimal h | Progress _ => True end.

(** Some chunk ends inside the last line of the stream, not counting the line feeds. *)
Definition cut_at_end (cs : list bytes) (rs : list report) (h : str) : Prop :=
  exists c, In c (cuts 0 cs)
    /\ (List.length (stream (map Progress rs)) < c)%nat
    /\ (c < List.length (stream (map Progress rs ++ [Completed h])) - 2)%nat.
