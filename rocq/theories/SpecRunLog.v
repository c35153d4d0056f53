(** What a run tells its user, said without the program. *)
From Coq Require Import NArith ZArith List Bool String.
From Verif Require Import PyStr Xml Json SpecJson JsonText Lint Extract Document Output Schema Disk Log SpecLog SpecCli SpecOutput SpecDoc
  SpecRun SpecOut SpecDisk Messages SpecMsg RunLog.
Import ListNotations.
Local Open Scope string_scope.
Local Open Scope list_scope.
Local Open Scope N_scope.

(** ** Messages *)

Section Show.
(** How paths are shown. *)
Variable show : path -> str.
Definition plain_msg (level : string) (text : str) (g : message) : Prop :=
  g_level g = utf8 level /\ g_text g = text /\ g_exn g = None.
(** The program turns to the input [p]. *)
Definition announces (p : path) (g : message) : Prop := plain_msg "U_INFO" (utf8 "parsing '" ++ show p ++ utf8 "'...") g.
(** There are [n] entries in the list of the JSON file [q]. *)
Definition counts (n : N) (q : path) (g : message) : Prop :=
  exists s, jnat s n
    /\ plain_msg "U_ERROR" (utf8 "Encountered " ++ s ++ utf8 " linting errors during processing, see `" ++ show q ++ utf8 "`") g.
(** The program gives up. *)
Definition gives_up (g : message) : Prop := exists t, plain_msg "U_ERROR" (utf8 "Program exited in error!" ++ t) g.
(** The input [p] is not of a kind the program reads. *)
Definition rejects (p : path) (s : str) : Prop :=
  (exists stem, named (snd p) stem (utf8 "json")
     /\ s = utf8 "cannot operate on NVMe model (JSON), requires the HTML model or docx spec as input" ++ [10])
  \/ (~ exists stem, named (snd p) stem (utf8 "json"))
     /\ exists t, s = utf8 "invalid input file (" ++ show p ++ utf8 ")" ++ t.

(** ** One input *)

(** The number of entries in the list of a JSON file. *)
Definition lint_count (t : str) (n : N) : Prop :=
  exists l m ls, json_text t (JObj l) /\ In (utf8 "meta", JObj m) l /\ In (utf8 "lint", JList ls) m /\ n = N.of_nat (List.length ls).
(** How many there are is told, if there are any. *)
Inductive told_count (q : path) (n : N) : list message -> Prop :=
| tc_none : n = 0 -> told_count q n []
| tc_some g : n <> 0 -> counts n q g -> told_count q n [g].

Variable version : str.
Variable read : str -> source.
Variable printed : failure -> str.
(** The HTML file for the input [p], among what was on the disk and what was written. *)
Definition html_for (out : str) (d : disk) (w : effects) (p : path) (src : str) : Prop :=
  (exists stem, html_file p stem /\ d p = Some (Text src))
  \/ exists stem, docx_file p stem /\ In ((out, stem ++ utf8 ".html"), src) w.
(** The reports about the document [root], one for each entry about a figure that failed or has
    no id; [ok]: its processing comes to the end. *)
Definition told_document (args : pargs) (root : elem) (ok : bool) (ts : list trouble) (gs : list message) : Prop :=
  exists k v es ls, let P := get_parser (a_skip args) (lower k) (lower v) in
    first_attr root "data-spec" k /\ first_attr root "data-revision" v
    /\ doc_outputs P 0 (figures root) ok es
    /\ those trouble_code (lints_of es) ls /\ Forall2 entry_of ts ls /\ Forall (nested P) ts /\ all_reports ts gs.
(** There is a figure whose failure is not reported: a table without rows, or a figure whose
    columns the document's own extractor does not recognise. *)
Definition unreported (args : pargs) (root : elem) : Prop :=
  exists k v t, first_attr root "data-spec" k /\ first_attr root "data-revision" v
    /\ In t (figures root)
    /\ (rowless t \/ exists m tbl, identified t m tbl /\ unrecognised (get_parser (a_skip args) (lower k) (lower v)) m tbl).

(** What is told about an input that goes well. *)
Inductive told_well (args : pargs) (out : str) (d : disk) (p : path) (w : effects) : list message -> Prop :=
| tw src root stem t n ts gs cs :
    html_for out d w p src -> read src = Tree root -> told_document args root true ts gs ->
    has_stem p stem -> In ((out, stem ++ utf8 ".json"), t) w -> json_for version args root t ->
    lint_count t n -> told_count (out, stem ++ utf8 ".json") n cs ->
    told_well args out d p w (gs ++ cs).
(** ... and about one that does not, because of the failure. *)
Inductive told_failure (args : pargs) (validate : bool) (out : str) (d : disk) (p : path) (w : effects) : failure -> list message -> Prop :=
| tf_convert stem : docx_file p stem -> told_failure args validate out d p w (FParse PConvert) []
| tf_unread : (forall src root, html_for out d w p src -> read src <> Tree root) ->
    told_failure args validate out d p w (FParse PRead) []
| tf_header src root : html_for out d w p src -> read src = Tree root ->
    no_attr root "data-spec" \/ no_attr root "data-revision" ->
    told_failure args validate out d p w (FParse (PDoc ERuntime)) []
| tf_figure src root e ts row m around gs : html_for out d w p src -> read src = Tree root ->
    told_document args root false (ts ++ [Failure row m e around]) gs ->
    told_failure args validate out d p w (FParse (PDoc e)) gs
| tf_unreported src root e ts gs : html_for out d w p src -> read src = Tree root ->
    told_document args root false ts gs -> unreported args root ->
    told_failure args validate out d p w (FParse (PDoc e)) gs
| tf_invalid gs stem t j : validate = true -> told_well args out d p w gs ->
    has_stem p stem -> In ((out, stem ++ utf8 ".json"), t) w -> json_text t j -> valid stage2_schema j = false ->
    told_failure args validate out d p w FInvalid gs.

(** ** All inputs *)

(** What is told in a run: the inputs are announced one after the other; it ends at the first one
    that does not go well. *)
Inductive told_run (args : pargs) (validate verbose : bool) (out : str) : disk -> list path -> effects -> N -> list entry -> Prop :=
| tr_end d : told_run args validate verbose out d [] [] 0 []
| tr_next d p ins w w' st a gs es :
    announces p a -> told_well args out d p w gs ->
    told_run args validate verbose out (disk_after w d) ins w' st es ->
    told_run args validate verbose out d (p :: ins) (w ++ w') st (Msg a :: map Msg gs ++ es)
| tr_reject d p ins a s :
    announces p a -> (~ exists stem, has_stem p stem) -> rejects p s ->
    told_run args validate verbose out d (p :: ins) [] 1 [Msg a; Stderr s]
| tr_fail d p ins w a f gs g :
    announces p a -> told_failure args validate out d p w f gs -> gives_up g ->
    told_run args validate verbose out d (p :: ins) w 1
      (Msg a :: map Msg gs ++ Bubble f :: Msg g :: if verbose then [Stderr (printed f)] else []).
End Show.

(** ** The log *)

(** The records for what is logged; the place in the source code and the texts of the
    exceptions are not said.  What is written to the standard error is not logged. *)
Inductive recorded : list entry -> list record -> Prop :=
| rc_nil : recorded [] []
| rc_msg g r es rs :
    lr_level r = g_level g -> lr_msg r = g_text g -> lr_extra r = g_extra g -> (lr_exc r = None <-> g_exn g = None) ->
    recorded es rs -> recorded (Msg g :: es) (r :: rs)
| rc_bubble f r es rs :
    lr_level r = utf8 "ERROR" -> lr_msg r = utf8 "unhandled exception bubbled up to top-level" -> lr_exc r <> None ->
    recorded es rs -> recorded (Bubble f :: es) (r :: rs)
| rc_text s es rs : recorded es rs -> recorded (Stderr s :: es) rs.
