(** src/spexsrv/application/app.py: the web server. *)
From Coq Require Import NArith ZArith List Bool String.
From Verif Require Import PyStr Xml Json Lint Extract Document Output Cli.
Import ListNotations.
Local Open Scope string_scope.
Local Open Scope list_scope.
Local Open Scope N_scope.

(** PurePath.with_suffix on the last component of a path. *)
Definition with_suffix (name sfx : str) : str :=
  match path_suffix name with
  | [] => name
  | s => firstn (List.length name - List.length s) name
  end ++ sfx.

(** An uploaded document (app.py:170-176): its file name and its bytes.  Simplification: the
    name is one path component (see [destination] for other names). *)
Definition bytes := list N.
Record upload := mkUpload { u_name : str; u_bytes : bytes }.

(** What processing finds in a file with given bytes (see Cli.v, [file]). *)
Record found := mkFound {
  fd_html : source; fd_total : N; fd_reports : list N; fd_raised : bool; fd_made : source }.

(** The content of a file: the bytes of an upload, the HTML file the docx stage made of some
    bytes, or a JSON document. *)
Inductive content := CBytes (b : bytes) | CMade (b : bytes) | CJson (d : model).

(** What the client sees on the event stream (app.py:191-198, 209): a progress report, or
    that the report with this hash is completed. *)
Inductive sevent := Progress (r : report) | Completed (hash : str).

(** An upload being processed, i.e. its event stream: reports not yet delivered; after the
    completion; ended, by an exception, by the client or normally. *)
Inductive session := Running (u : upload) (rest : list report) | Announced | Ended.

(** The files of the cache directory, the lookup table and the event streams. *)
Record server := mkServer {
  s_files : str -> option content; s_lookup : str -> option str; s_sessions : list session }.
(** app.py:81-90, _app_init *)
Definition init : server := mkServer (fun _ => None) (fun _ => None) [].

Definition put {A} (k : str) (v : A) (m : str -> option A) : str -> option A :=
  fun k' => if seqb k' k then Some v else m k'.
Fixpoint replace_nth {A} (i : nat) (x : A) (l : list A) : list A :=
  match l, i with
  | [], _ => []
  | _ :: r, O => x :: r
  | a :: r, S j => a :: replace_nth j x r
  end.

(** What can happen: a POST to /parse with a document or without one, whose client accepts an
    event stream or not; the client of the i-th stream takes an event; it goes away.
    What happens between two suspension points of the event loop is one step. *)
Inductive act := Post (doc : option upload) (sse : bool) | Pull (i : nat) | Close (i : nat).

(** app.py:164-168, 215: the answer to a POST. *)
Definition post_status (doc : option upload) (sse : bool) : N :=
  match doc with None => 422 | Some _ => if sse then 200 else 400 end.

Section Server.
(** [__version__]; the MD5 digest as a hexadecimal string; what is found in a file. *)
Variable version : str.
Variable md5 : bytes -> str.
Variable decode : bytes -> found.

Definition upload_file (u : upload) : file :=
  let d := decode (u_bytes u) in
  mkFile (u_name u) (fd_html d) (fd_total d) (fd_reports d) (fd_raised d) (fd_made d).

(** app.py:179-187: the run of parse_spec on the saved document.  Simplification: the upload
    is saved without an error, and nothing else uses its temporary directory, so that the run
    may be computed at once and its reports delivered one by one. *)
Definition run_of (u : upload) : run :=
  parse_spec version (mkArgs true []) true None (as_input (upload_file u)).

(** The files of the temporary directory after the run: the JSON file, the HTML file of a docx
    file and the upload itself. *)
Definition temp_file (u : upload) (name : str) : option content :=
  if seqb name (json_name (html_file (upload_file u)))
  then match r_file (run_of u) with Some d => Some (CJson d) | None => None end
  else if seqb name (html_file (upload_file u))
  then Some (if seqb (path_suffix (u_name u)) (utf8 ".docx") then CMade (u_bytes u) else CBytes (u_bytes u))
  else if seqb name (u_name u) then Some (CBytes (u_bytes u))
  else None.

(** app.py:199-209, after the last report: the files and the lookup table, and whether
    completion was announced. *)
Definition publish (u : upload) (files : str -> option content) (lookup : str -> option str)
  : (str -> option content) * (str -> option str) * bool :=
  match r_end (run_of u) with
  | Failed _ => (files, lookup, false)
  | Finished =>
      let json_fpath := json_name (html_file (upload_file u)) in
      let html_path := with_suffix json_fpath (utf8 ".html") in
      match temp_file u json_fpath with
      | None => (files, lookup, false)
      | Some j =>
          let files := put json_fpath j files in
          match temp_file u html_path with
          | None => (files, lookup, false)
          | Some h => (put html_path h files, put (md5 (u_bytes u)) json_fpath lookup, true)
          end
      end
  end.

(** app.py:160-211: one step, with the event it delivers. *)
Definition step (s : server) (a : act) : server * list (nat * sevent) :=
  match a with
  | Post (Some u) true =>
      (mkServer (s_files s) (s_lookup s) (s_sessions s ++ [Running u (r_reports (run_of u))]), [])
  | Post _ _ => (s, [])
  | Close i => (mkServer (s_files s) (s_lookup s) (replace_nth i Ended (s_sessions s)), [])
  | Pull i =>
      match nth_error (s_sessions s) i with
      | Some (Running u (r :: rest)) =>
          (mkServer (s_files s) (s_lookup s) (replace_nth i (Running u rest) (s_sessions s)), [(i, Progress r)])
      | Some (Running u []) =>
          let '(files, lookup, ok) := publish u (s_files s) (s_lookup s) in
          (mkServer files lookup (replace_nth i (if ok then Announced else Ended) (s_sessions s)),
           if ok then [(i, Completed (md5 (u_bytes u)))] else [])
      | Some Announced => (mkServer (s_files s) (s_lookup s) (replace_nth i Ended (s_sessions s)), [])
      | Some Ended | None => (s, [])
      end
  end.

(** A history of the server: its state and the events delivered. *)
Definition run_server (s : server) (hist : list act) : server * list (nat * sevent) :=
  fold_left (fun p a => let (s', es) := step (fst p) a in (s', snd p ++ es)) hist (s, []).

End Server.

(** ** The pages *)

Inductive answer :=
| Served (c : content)                  (* a file is sent *)
| Page (json html : content)            (* the report page made of these files *)
| NotFound                              (* status 404 *)
| Raised.                               (* an exception in the handler: status 500 *)

(** app.py:148-151, json_report: [Path(None)] raises a TypeError; sending a missing file raises. *)
Definition get_json (s : server) (hash : str) : answer :=
  match s_lookup s hash with
  | None => Raised
  | Some p => match s_files s p with Some c => Served c | None => Raised end
  end.
(** app.py:154-157, html_report *)
Definition get_html (s : server) (hash : str) : answer :=
  match s_lookup s hash with
  | None => Raised
  | Some p => match s_files s (with_suffix p (utf8 ".html")) with Some c => Served c | None => Raised end
  end.
(** app.py:110-145, report: the lookup of line 114 comes before the check of line 116; without
    the "lint" member of line 123 or the HTML file of line 125 the handler raises.
    Simplification: reading the cached HTML file as XML succeeds, as it did in parse_spec. *)
Definition get_report (s : server) (hash : str) : answer :=
  match s_lookup s hash with
  | None => Raised
  | Some p =>
      match s_files s p with
      | None => NotFound
      | Some (CJson d) =>
          match jget (utf8 "lint") (mo_meta d), s_files s (with_suffix p (utf8 ".html")) with
          | Some (JList _), Some h => Page (CJson d) h
          | _, _ => Raised
          end
      | Some _ => Raised
      end
  end.

(** ** Where an upload is saved *)

(** The components of a path: pathlib drops empty ones and ".". *)
Definition components (p : str) : list str :=
  filter (fun c => negb (seqb c []) && negb (seqb c (utf8 "."))) (split_char 47 p).
(** app.py:174: [temp_dir_path / spec.filename], the components of an absolute path; an
    absolute file name replaces the directory. *)
Definition destination (dir : list str) (filename : str) : list str :=
  match filename with
  | 47 :: _ => components filename
  | _ => dir ++ components filename
  end.
(** What the operating system makes of "..", without symbolic links. *)
Fixpoint resolve_aux (acc : list str) (p : list str) : list str :=
  match p with
  | [] => rev acc
  | c :: r => if seqb c (utf8 "..") then resolve_aux (tl acc) r else resolve_aux (c :: acc) r
  end.
Definition resolve (p : list str) : list str := resolve_aux [] p.

(** ** app.py:47-53, md5sum *)

(** The file is read in chunks until an empty one is read; the digest object is updated with
    each.  The fuel bounds the number of reads. *)
Fixpoint read_chunks (fuel : nat) (size : nat) (b : bytes) : option (list bytes) :=
  match fuel with
  | O => None
  | S f =>
      match firstn size b with
      | [] => Some []
      | c => match read_chunks f size (skipn size b) with Some l => Some (c :: l) | None => None end
      end
  end.
Definition md5sum {H} (start : H) (update : H -> bytes -> H) (hexdigest : H -> str) (size : nat) (b : bytes)
  : option str :=
  match read_chunks (S (List.length b)) size b with
  | Some cs => Some (hexdigest (fold_left update cs start))
  | None => None
  end.
