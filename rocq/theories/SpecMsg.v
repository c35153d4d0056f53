(** The messages about figures that could not be processed, said without the program. *)
From Coq Require Import NArith ZArith List Bool String.
From Verif Require Import PyStr Xml Json SpecJson Lint Extract Document SpecLog SpecDoc Messages.
Import ListNotations.
Local Open Scope string_scope.
Local Open Scope list_scope.
Local Open Scope N_scope.

(** ** Python string literals *)

(** What the characters between two quotes [q] stand for. *)
Inductive denotes (q : N) : str -> str -> Prop :=
| dn_nil : denotes q [] []
| dn_plain c t s : c <> q -> c <> 92 -> denotes q t s -> denotes q (c :: t) (c :: s)
| dn_quoted c t s : c = q \/ c = 92 -> denotes q t s -> denotes q (92 :: c :: t) (c :: s)
| dn_tab t s : denotes q t s -> denotes q (92 :: 116 :: t) (9 :: s)
| dn_line t s : denotes q t s -> denotes q (92 :: 110 :: t) (10 :: s)
| dn_return t s : denotes q t s -> denotes q (92 :: 114 :: t) (13 :: s)
| dn_x a b x y t s : hexdigit a x -> hexdigit b y -> denotes q t s ->
    denotes q (92 :: 120 :: a :: b :: t) (x * 16 + y :: s)
| dn_u h n t s : hex16 h n -> denotes q t s -> denotes q (92 :: 117 :: h ++ t) (n :: s)
| dn_U h h' n n' t s : hex16 h n -> hex16 h' n' -> denotes q t s ->
    denotes q (92 :: 85 :: h ++ h' ++ t) (n * 65536 + n' :: s).
(** [t] is a literal for [s]. *)
Definition literal (t s : str) : Prop :=
  exists q b, (q = 39 \/ q = 34) /\ t = q :: b ++ [q] /\ denotes q b s.

(** The description of a figure: a Python dict of literals. *)
Definition describes (t : str) (m : meta) : Prop :=
  exists a b c, t = utf8 "{" ++ a ++ utf8 "'fig_id': " ++ b ++ c ++ utf8 "}"
    /\ literal b (m_fig m)
    /\ match m_title m with Some s => exists l, a = utf8 "'title': " ++ l ++ utf8 ", " /\ literal l s | None => a = [] end
    /\ match m_parent m with Some s => exists l, c = utf8 ", 'parent_fig_id': " ++ l /\ literal l s | None => c = [] end.

(** Strings that are Unicode text; all those a figure has. *)
Definition unicode (s : str) : Prop := Forall (fun c => c < 1114112) s.
Definition unicode_meta (m : meta) : Prop :=
  unicode (m_fig m) /\ (forall t, m_title m = Some t -> unicode t) /\ (forall p, m_parent m = Some p -> unicode p).

(** ** Reports *)

(** A failure: figure [m] could not be read because of [e] ([row]: in this row, if it is known),
    and it is in these figures; or a figure without an id. *)
Inductive trouble := Failure (row : option str) (m : meta) (e : exn) (around : list meta) | NoId (title : str).

(** What is bound to a message about figure [m]. *)
Definition about (m : meta) (g : message) : Prop :=
  exists j, In (utf8 "entity", j) (g_extra g)
    /\ members j (match m_title m with Some t => [(utf8 "title", JStr t)] | None => [] end
                  ++ [(utf8 "fig_id", JStr (m_fig m))]
                  ++ match m_parent m with Some p => [(utf8 "parent_fig_id", JStr p)] | None => [] end).
(** A message for the user: "failed parsing figure" or "in", and the figure. *)
Definition for_user (start : string) (m : meta) (g : message) : Prop :=
  g_level g = utf8 "U_ERROR" /\ g_exn g = None /\ about m g
  /\ exists d, g_text g = utf8 start ++ d /\ (unicode_meta m -> describes d m).
(** A message for the log file with an exception. *)
Definition for_log (e : exn) (m : meta) (g : message) : Prop :=
  g_level g = utf8 "ERROR" /\ g_exn g = Some e /\ about m g.

(** The messages about a failure. *)
Inductive reports : trouble -> list message -> Prop :=
| rp_failure m e around g1 g2 gs :
    for_user "failed parsing figure " m g1 -> for_log e m g2 -> Forall2 (for_user "  in ") around gs ->
    reports (Failure None m e around) (g1 :: g2 :: gs)
| rp_row row m e around g0 g1 g2 gs :
    for_log e m g0 -> In (utf8 "range", JStr row) (g_extra g0) ->
    for_user "failed parsing figure " m g1 -> for_log e m g2 -> Forall2 (for_user "  in ") around gs ->
    reports (Failure (Some row) m e around) (g0 :: g1 :: g2 :: gs)
| rp_no_id title d g :
    g_level g = utf8 "U_ERROR" -> g_exn g = None ->
    g_text g = utf8 "failed extracting title from figure header " ++ d -> (unicode title -> literal d title) ->
    reports (NoId title) [g].
Inductive all_reports : list trouble -> list message -> Prop :=
| ar_nil : all_reports [] []
| ar_cons t ts gs gs' : reports t gs -> all_reports ts gs' -> all_reports (t :: ts) (gs ++ gs').

(** The entry of the output for a failure. *)
Definition entry_of (t : trouble) (l : lint) : Prop :=
  match t with
  | Failure _ m _ _ =>
      l_code l = T1000 /\ l_fig l = m_fig m
      /\ l_ctx l = match m_title m with Some t => [(utf8 "title", JStr t)] | None => [] end
  | NoId title => l_code l = T1008 /\ l_ctx l = [(utf8 "title", JStr title)]
  end.
Definition trouble_code (l : lint) : Prop := l_code l = T1000 \/ l_code l = T1008.

(** Figure [m] is directly in figure [m']: in one of its rows, or split off from it by the
    extractor the document has for [m']. *)
Definition directly_in (P : parser) (m m' : meta) : Prop :=
  (exists key, m = sub_meta (m_fig m') key)
  \/ (m_parent m = None /\ exists c prefix, lookup_fig (p_fig_overrides P) (m_fig m') = Some c
        /\ ec_handler c = HSplit prefix (m_fig m)).
Inductive chain (P : parser) : meta -> list meta -> Prop :=
| ch_top m : chain P m []
| ch_in m m' ms : directly_in P m m' -> chain P m' ms -> chain P m (m' :: ms).
Definition nested (P : parser) (t : trouble) : Prop :=
  match t with Failure _ m _ around => chain P m around | NoId _ => True end.
(** The outermost figure of a failure. *)
Definition outermost (m : meta) (around : list meta) : meta := List.last around m.

(** What was done, without the messages; the messages. *)
Definition done (l : list act) : list event := flat_map (fun a => match a with Did e => [e] | Said _ => [] end) l.
Definition said (l : list act) : list message := flat_map (fun a => match a with Did _ => [] | Said g => [g] end) l.
