(** Independent vocabulary for the properties of the command line program. *)
From Coq Require Import NArith ZArith List Bool String.
From Verif Require Import PyStr Xml Json Lint Extract Document Output Schema Cli SpecText.
Import ListNotations.
Local Open Scope list_scope.
Local Open Scope N_scope.

(** [name] is "<stem>.<ext>" with both parts non-empty and no dot in the extension. *)
Definition named (name stem ext : str) : Prop :=
  name = stem ++ 46 :: ext /\ stem <> [] /\ ext <> [] /\ ~ In 46 ext.

(** The kinds of input the program accepts. *)
Definition accepted (f : file) : Prop :=
  exists stem, named (f_name f) stem (utf8 "html") \/ named (f_name f) stem (utf8 "docx").

(** Processing the file, as an HTML file or as a docx file. *)
Definition processed (version : str) (args : pargs) (f : file) (r : run) : Prop :=
  exists stem,
    named (f_name f) stem (utf8 "html") /\ r = parse_spec version args false None (Html (f_html f))
    \/ named (f_name f) stem (utf8 "docx")
       /\ r = parse_spec version args false None (Docx (f_total f) (f_reports f) (f_raised f) (f_made f)).

(** The input goes well: it has an accepted name, processing ends without an exception and, if
    asked for, its result passes the schema. *)
Definition goes_well (version : str) (args : pargs) (validate : bool) (f : file) : Prop :=
  exists r d, processed version args f r /\ r_end r = Finished /\ r_file r = Some d
    /\ (validate = true -> valid stage2_schema (model_json d) = true).

(** What processing the file writes: <stem>.json with the document, if processing got so far
    as to open it. *)
Definition writes (version : str) (args : pargs) (f : file) (ws : list (str * model)) : Prop :=
  (exists stem ext r, named (f_name f) stem ext /\ processed version args f r
     /\ ws = match r_file r with Some d => [(stem ++ utf8 ".json", d)] | None => [] end)
  \/ ~ accepted f /\ ws = [].

(** [w] is the text [n] in any letter case (ASCII). *)
Definition same_letter (a b : N) : Prop := a = b \/ (65 <= b <= 90 /\ a = b + 32).
Definition any_case (w n : str) : Prop := Forall2 same_letter w n.
(** A code's name in any letter case with any blanks around it. *)
Definition spells (p : str) (c : code) : Prop :=
  exists l w r, p = l ++ w ++ r /\ Forall (fun x => isspace x = true) l
    /\ Forall (fun x => isspace x = true) r /\ any_case w (code_name c).
(** The pieces of [t] between its commas. *)
Definition pieces (t : str) (ps : list str) : Prop :=
  t = join [44] ps /\ ps <> [] /\ Forall (fun p => ~ In 44 p) ps.
