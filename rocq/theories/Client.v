(** src/spexsrv/templates/upload-form.html: the page that uploads a document and follows its
    progress; and the text of the event stream (src/spexsrv/application/app.py). *)
From Coq Require Import NArith ZArith List Bool String.
From Verif Require Import PyStr Json Output JsonText Server.
Import ListNotations.
Local Open Scope string_scope.
Local Open Scope list_scope.
Local Open Scope N_scope.

(** ** The stream (app.py) *)

(** parse.py:37,54: the names of the phases *)
Definition phase_name (p : phase) : str := match p with PHtml => utf8 "html" | PJson => utf8 "json" end.
(** app.py:178, [url_for("report", hash=hash)].  Simplification: the application is mounted at
    the root and the hash needs no quoting, being a hexadecimal number. *)
Definition report_url (hash : str) : str := utf8 "/report/" ++ hash.
(** app.py:191-198, 209 *)
Definition event_json (e : sevent) : json :=
  match e with
  | Progress (p, i, total) =>
      JObj [(utf8 "type", JStr (utf8 "progress-update")); (utf8 "phase", JStr (phase_name p));
            (utf8 "fig_ndx", JInt (Z.of_N i)); (utf8 "num_figs", JInt (Z.of_N total))]
  | Completed h => JObj [(utf8 "type", JStr (utf8 "report-completed")); (utf8 "url", JStr (report_url h))]
  end.
(** app.py:56-57, json_to_sse.  The text is ASCII, so that its characters are its bytes. *)
Definition sse (e : sevent) : bytes := utf8 "data: " ++ dumps (event_json e) ++ [10; 10].

(** ** The page *)

(** A progress bar: its value and its maximum, as found in the message ([None]: undefined). *)
Definition bar := (option json * option json)%type.
(** The stores of upload-form.html:87-97 and the variable [url] of line 118, as the text it has
    as a location. *)
Record page := mkPage { pg_html : bar; pg_json : bar; pg_processing : bool; pg_url : str }.
Definition num (n : Z) : option json := Some (JInt n).
(** upload-form.html:89-97, 118, 129: when the answer has arrived; null is written "null". *)
Definition start_page : page := mkPage (num 0, num 100) (num 0, num 100) true (utf8 "null").

(** [msg.name]; of members with the same name JSON.parse keeps the last one. *)
Definition member (k : string) (l : list (str * json)) : option json := jget (utf8 k) (rev l).
Definition is_string (k : string) (v : option json) : bool :=
  match v with Some (JStr s) => seqb s (utf8 k) | _ => false end.
(** What a value is as a location.  Simplification: only strings occur as an URL. *)
Definition as_location (v : option json) : str := match v with Some (JStr s) => s | _ => utf8 "undefined" end.

(** upload-form.html:100-115 *)
Definition on_progress (phase fig_ndx num_figs : option json) (pg : page) : page :=
  if is_string "html" phase then mkPage (fig_ndx, num_figs) (pg_json pg) (pg_processing pg) (pg_url pg)
  else if is_string "json" phase then mkPage (num 100, num 100) (fig_ndx, num_figs) (pg_processing pg) (pg_url pg)
  else pg.
(** upload-form.html:140-153.  A message that is not an object has no [type]; for null, line 140
    raises and the message is logged (lines 154-157). *)
Definition on_message (msg : json) (pg : page) : page :=
  match msg with
  | JObj l =>
      if is_string "progress-update" (member "type" l)
      then on_progress (member "phase" l) (member "fig_ndx" l) (member "num_figs" l) pg
      else if is_string "report-completed" (member "type" l)
      then let pg := on_progress (Some (JStr (utf8 "json"))) (num 100) (num 100) pg in
           mkPage (pg_html pg) (pg_json pg) false (as_location (member "url" l))
      else pg
  | _ => pg
  end.
(** upload-form.html:137-158; [None] of [loads]: JSON.parse raises, lines 154-157. *)
Definition on_line (pg : page) (line : str) : page :=
  if startswith (utf8 "data: ") line
  then match loads (skipn 6 line) with Some msg => on_message msg pg | None => pg end
  else pg.
(** upload-form.html:135-136: each chunk is decoded and split on its own.  Simplification:
    decoding UTF-8 is left out, for bytes below 128. *)
Definition on_chunk (pg : page) (chunk : bytes) : page := fold_left on_line (split_char 10 chunk) pg.
Definition after_chunks (chunks : list bytes) : page := fold_left on_chunk chunks start_page.
(** upload-form.html:130-134, 161-166: where the browser goes.  A stream that is broken off
    rejects the read, which is logged only. *)
Definition goes_to (chunks : list bytes) (broken : bool) : option str :=
  if broken then None else Some (pg_url (after_chunks chunks)).
