(** Independent vocabulary for the files a run of the program reads and writes. *)
From Coq Require Import NArith ZArith List Bool String.
From Verif Require Import PyStr Xml Json JsonText Lint Extract Document Output Docx Disk.
From Verif Require Import SpecFmt SpecQuery SpecXml SpecCli SpecOutput SpecStage2 SpecJson SpecDoc SpecOut.
Import ListNotations.
Local Open Scope string_scope.
Local Open Scope list_scope.
Local Open Scope N_scope.

(** ** Inputs and outputs *)

(** A docx file or an HTML file. *)
Definition docx_file (p : path) (stem : str) : Prop := named (snd p) stem (utf8 "docx").
Definition html_file (p : path) (stem : str) : Prop := named (snd p) stem (utf8 "html").
(** Its name is [stem] and either extension. *)
Definition has_stem (p : path) (stem : str) : Prop := docx_file p stem \/ html_file p stem.
(** The files that processing the input [p] is for: a JSON file and, for a docx file, an HTML
    file and a style sheet, in the output directory. *)
Definition output_of (out : str) (p q : path) : Prop :=
  exists stem, (has_stem p stem /\ q = (out, stem ++ utf8 ".json"))
    \/ (docx_file p stem /\ (q = (out, stem ++ utf8 ".html") \/ q = (out, stem ++ utf8 ".css"))).
(** An HTML file among the inputs that is the HTML file of a docx file among the inputs. *)
Definition overlap (out : str) (ins : list path) (q : path) : Prop :=
  exists p stem, In p ins /\ docx_file p stem /\ q = (out, stem ++ utf8 ".html").

(** ** What is in a docx file *)

(** The texts of the w:t elements, one after the other. *)
Inductive joined : list welem -> str -> Prop :=
| jo_nil : joined [] []
| jo_text e es x s : w_tag e = utf8 "w:t" -> w_text e = Some x -> joined es s -> joined (e :: es) (x ++ s)
| jo_skip e es s : w_tag e <> utf8 "w:t" \/ w_text e = None -> joined es s -> joined (e :: es) s.
(** The title of a header: what is before the first comma, without the white space around it. *)
Definition title_is (h t : str) : Prop :=
  exists before, (h = before \/ exists rest, h = before ++ 44 :: rest) /\ ~ In 44 before /\ SpecFmt.trimmed before t.
(** Its revision: the word after the last "revision". *)
Definition revision_is (h : str) (o : option str) : Prop :=
  match o with
  | Some w => exists a, revision_at h a w /\ forall a' w', revision_at h a' w' -> (List.length a' <= List.length a)%nat
  | None => forall a w, ~ revision_at h a w
  end.
(** The document in a docx file, with the title and the revision of its header. *)
Definition holds_document (p : package) (d : docx) (title : str) (rev : option str) : Prop :=
  exists hd h, pk_document p = Some (dx_body d) /\ pk_styles p = Some (dx_styles d) /\ pk_header p = Some hd
    /\ match pk_numbering p with
       | None => dx_num d = None
       | Some e => exists n, parse_numbering e = DOk n /\ dx_num d = Some n
       end
    /\ joined (below hd) h /\ title_is h title /\ revision_is h rev.

(** ** What is in a JSON file *)

(** The JSON file for an HTML tree: title and revision in lower case, the versions, all entities
    of the specified output, and its lint entries but those ignored. *)
Definition json_for (version : str) (args : pargs) (root : elem) (t : str) : Prop :=
  exists k v es j m js ls lj,
    first_attr root "data-spec" k /\ first_attr root "data-revision" v
    /\ doc_outputs (get_parser (a_skip args) (lower k) (lower v)) 0 (figures root) true es
    /\ json_text t j /\ object j [("meta", m); ("entities", JList js)]
    /\ object m [("specification", JStr (lower k)); ("revision", JStr (lower v)); ("format version", JInt 1);
                 ("spex version", JStr version); ("lint", JList lj)]
    /\ Forall2 SpecStage2.says (ents_of es) js
    /\ without (fun l => In (l_code l) (a_ignore args)) (lints_of es) ls /\ Forall2 says_lint ls lj.

(** The JSON value of a run that came to its end has a list of lint entries. *)
Definition says_complete (j : json) : Prop := exists l m x, j = JObj l /\ In (utf8 "meta", JObj m) l /\ In (utf8 "lint", x) m.

(** The codes to be ignored, as given by --lint-ignore. *)
Definition ignores (o : option str) (cs : list code) : Prop :=
  match o with None => cs = [] | Some t => exists ps, pieces t ps /\ Forall2 spells ps cs end.

(** The reader of HTML files reads XML documents as what they are. *)
Definition reads_xml (read : str -> source) : Prop := forall s t, xdocument s t -> read s = Tree t.

(** ** Inputs that can be processed *)

(** The JSON stage comes to the end of the HTML tree: it has a title and a revision, and no figure
    ends the run.  The outputs are then [es]. *)
Definition comes_to_end (skip : bool) (root : elem) (es : list event) : Prop :=
  exists k v, first_attr root "data-spec" k /\ first_attr root "data-revision" v
    /\ doc_outputs (get_parser skip (lower k) (lower v)) 0 (figures root) true es.
