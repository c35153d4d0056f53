(** Independent vocabulary for the properties of the web server. *)
From Coq Require Import NArith ZArith List Bool String.
From Verif Require Import PyStr Xml Json Lint Extract Document Output Cli SpecCli Server.
Import ListNotations.
Local Open Scope list_scope.
Local Open Scope N_scope.

(** The uploads accepted in a history; the stream of the i-th one has number i. *)
Fixpoint accepted_uploads (hist : list act) : list upload :=
  match hist with
  | [] => []
  | Post (Some u) true :: r => u :: accepted_uploads r
  | _ :: r => accepted_uploads r
  end.

(** How many events the client of stream [i] has asked for before going away, if [n] streams
    exist at the start. *)
Fixpoint asked (i n : nat) (hist : list act) : nat :=
  match hist with
  | [] => 0
  | Post (Some _) true :: r => asked i (S n) r
  | Post _ _ :: r => asked i n r
  | Pull j :: r => if Nat.eqb j i && Nat.ltb i n then S (asked i n r) else asked i n r
  | Close j :: r => if Nat.eqb j i && Nat.ltb i n then 0 else asked i n r
  end.

(** The events of stream [i] among all events. *)
Definition events_of (i : nat) (es : list (nat * sevent)) : list sevent :=
  map snd (filter (fun p => Nat.eqb (fst p) i) es).

(** The upload is an HTML file or a docx file with this stem. *)
Definition document (u : upload) (stem : str) : Prop :=
  named (u_name u) stem (utf8 "html") \/ named (u_name u) stem (utf8 "docx").

Section Spec.
Variable version : str.
Variable md5 : bytes -> str.
Variable decode : bytes -> found.

(** Processing the upload as the command line program would, skipping figures with errors. *)
Definition processing (u : upload) (r : run) : Prop :=
  let d := decode (u_bytes u) in
  r = parse_spec version (mkArgs true []) true None
        (if seqb (path_suffix (u_name u)) (utf8 ".docx")
         then Docx (fd_total d) (fd_reports d) (fd_raised d) (fd_made d) else Html (fd_html d)).
(** Processing it succeeds with document [d]. *)
Definition succeeds (u : upload) (d : model) : Prop :=
  exists r, processing u r /\ r_end r = Finished /\ r_file r = Some d.
(** The HTML document of an upload: itself, or made from the docx file. *)
Definition html_document (u : upload) (c : content) : Prop :=
  exists stem, named (u_name u) stem (utf8 "html") /\ c = CBytes (u_bytes u)
            \/ named (u_name u) stem (utf8 "docx") /\ c = CMade (u_bytes u).

(** Completion with this hash was announced on stream [i]. *)
Definition announced (hist : list act) (i : nat) (h : str) : Prop :=
  In (i, Completed h) (snd (run_server version md5 decode init hist)).
Definition state_after (hist : list act) : server := fst (run_server version md5 decode init hist).

(** The stem of an upload's file name: what precedes its extension, or nothing if it has none. *)
Definition has_stem (u : upload) (s : str) : Prop :=
  (exists ext, named (u_name u) s ext) \/ s = [] /\ ~ exists s' ext, named (u_name u) s' ext.
(** No two uploads with different content have the same stem. *)
Definition own_names (us : list upload) : Prop :=
  forall u v s, In u us -> In v us -> has_stem u s -> has_stem v s -> u_bytes u = u_bytes v.
(** Uploads with the content of [u] are docx files if and only if [u] is. *)
Definition same_kind (us : list upload) (u : upload) : Prop :=
  forall v, In v us -> u_bytes v = u_bytes u ->
    ((exists s, named (u_name v) s (utf8 "docx")) <-> (exists s, named (u_name u) s (utf8 "docx"))).
(** No two different documents among the uploads have the same digest. *)
Definition no_collision (us : list upload) : Prop :=
  forall u v, In u us -> In v us -> md5 (u_bytes u) = md5 (u_bytes v) -> u_bytes u = u_bytes v.
End Spec.
