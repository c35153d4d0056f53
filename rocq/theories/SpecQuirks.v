(** Specification: the documents some of whose figures are treated specially. *)
From Coq Require Import NArith List String.
From Verif Require Import PyStr Xml Json Output SpecDoc.
Import ListNotations.
Local Open Scope string_scope.
Local Open Scope list_scope.

(** The name and the revision of the document, in lower case, and its special figures. *)
Definition known_documents : list (string * string * list string) :=
  [("nvm express® nvm command set specification", "1.0c", ["23"; "42"; "49"; "64"]);
   ("nvm express® zoned namespace command set specification", "1.1c", ["37"]);
   ("nvm express® management interface specification", "1.2c", ["19"; "64"]);
   ("nvm express® key value command set specification", "1.0c", ["41"]);
   ("nvm express® key value command set specification", "1.0", ["41"])].
Definition special_figure (name rev fig : str) : Prop :=
  exists n v fs f, In (n, v, fs) known_documents /\ name = utf8 n /\ rev = utf8 v /\ In f fs /\ fig = utf8 f.
(** The labels that are set by hand, for the rows of value tables: document, revision, figure (or
    figure nested in a row), value, label. *)
Definition labels_by_hand : list (string * string * string * string * string) :=
  let nvm := ("nvm express® nvm command set specification", "1.0c") in
  let zns := ("nvm express® zoned namespace command set specification", "1.1c") in
  let mi := ("nvm express® management interface specification", "1.2c") in
  [(nvm, "42_4", "00b", "none"); (nvm, "42_4", "01b", "idle"); (nvm, "42_4", "10b", "normal"); (nvm, "42_4", "11b", "low");
   (nvm, "49_0_4", "00b", "none"); (nvm, "42_0_4", "01b", "idle"); (nvm, "49_0_4", "10b", "normal"); (nvm, "49_0_4", "11b", "low");
   (nvm, "64_0_4", "00b", "none"); (nvm, "64_0_4", "01b", "idle"); (nvm, "64_0_4", "10b", "normal"); (nvm, "64_0_4", "11b", "low");
   (zns, "37", "0", "zt"); (zns, "37", "1", "zs"); (zns, "37", "2", "za");
   (mi, "19", "2", "misc")].

(** The figure is [r], or is nested in it. *)
Definition under (r fig : str) : Prop := fig = r \/ exists k, fig = r ++ 95%N :: k.
(** No figure of the document with this id is special. *)
Definition ordinary (name rev fig : str) : Prop := forall r, special_figure name rev r -> ~ under r fig.
Definition ordinary_figures (name rev : str) (root : elem) : Prop :=
  forall b t s id, In b (children (utf8 "body") root) -> In t (children (utf8 "table") b) ->
    title_text t s -> title_id s id -> ordinary name rev id.

(** Two JSON documents that are the same but for the name and the revision. *)
Definition same_but_name (k v k' v' : str) (d d' : model) : Prop :=
  mo_entities d = mo_entities d'
  /\ exists rest, mo_meta d = (utf8 "specification", JStr k) :: (utf8 "revision", JStr v) :: rest
       /\ mo_meta d' = (utf8 "specification", JStr k') :: (utf8 "revision", JStr v') :: rest.
