(** Specification: the inputs of runs that differ only in formatting. *)
From Coq Require Import NArith List String.
From Verif Require Import PyStr Xml Disk SpecXml SpecAlike SpecResaved.
Import ListNotations.
Local Open Scope string_scope.
Local Open Scope list_scope.

(** Two texts that are XML documents that differ only in formatting. *)
Definition texts_alike (s s' : str) : Prop :=
  exists r r', xdocument s r /\ xdocument s' r' /\ e_tag r = utf8 "html" /\ alike r r'.
(** The inputs are the same, but for HTML files with other formatting and docx files saved again. *)
Definition inputs_like (ins : list path) (d d' : disk) : Prop :=
  forall p, In p ins -> d p = d' p
    \/ (exists s s', d p = Some (Text s) /\ d' p = Some (Text s') /\ texts_alike s s')
    \/ (exists pk pk', d p = Some (Package pk) /\ d' p = Some (Package pk') /\ resaved_package pk pk').
