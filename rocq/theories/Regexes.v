(** The regular expressions of /repo as pattern data. *)
From Coq Require Import NArith List String.
From Verif Require Import PyStr Regex.
Import ListNotations.
Local Open Scope N_scope.
Local Open Scope string_scope.

(** Group numbers standing for the named groups. *)
Definition G_label : N := 1.
Definition G_acronym : N := 2.
Definition G_brief : N := 3.
Definition G_high : N := 4.
Definition G_low : N := 5.
Definition G_id : N := 6.
Definition G_1 : N := 7.
Definition G_2 : N := 8.
Definition G_rev : N := 9.

Definition one (c : N) : cls := Cls [CI c].

(** src/spex/jsonspec/extractors/regular_expressions.py:45-50, STRUCT_LABEL_REGEX (DOTALL)
    ^(?P<label>[\w\s,-/&]* )\(?(?P<acronym>[\w\s\d]* )?\)?:?(?P<brief>.+)?$
    (a blank is written after each star so that this comment does not end)
    The class [,-/] is the range from ',' to '/'. *)
Definition STRUCT_LABEL_REGEX : re :=
  rseq [ RBol;
         RGrp G_label (RStar (Cls [CW; CS; CR 44 47; CI 38]));
         ROpt (RChr (one 40));
         ROpt (RGrp G_acronym (RStar (Cls [CW; CS; CD])));
         ROpt (RChr (one 41));
         ROpt (RChr (one 58));
         ROpt (RGrp G_brief (RPlus Any));
         REol ].

(** regular_expressions.py:52-57, VALUE_LABEL_REGEX (DOTALL)
    ^(?P<label>[\w\s/-]* ):?(?P<brief>.+)?$  (blank after the star added) *)
Definition VALUE_LABEL_REGEX : re :=
  rseq [ RBol;
         RGrp G_label (RStar (Cls [CW; CS; CI 47; CI 45]));
         ROpt (RChr (one 58));
         ROpt (RGrp G_brief (RPlus Any));
         REol ].

(** regular_expressions.py:59, RANGE_REGEX   (?P<high>\d+)\s*(:\s*(?P<low>\d+))? *)
Definition RANGE_REGEX : re :=
  rseq [ RGrp G_high (RPlus (Cls [CD]));
         RStar (Cls [CS]);
         ROpt (rseq [RChr (one 58); RStar (Cls [CS]); RGrp G_low (RPlus (Cls [CD]))]) ].

(** regular_expressions.py:61-63, DYNAMIC_RANGE_REGEX
    ^(?P<low>[a-zA-Z0-9+\-*()\s]+):(?P<high>[a-zA-Z0-9+\-*()\s]+) *)
Definition dyn_cls : cls :=
  Cls [CR 97 122; CR 65 90; CR 48 57; CI 43; CI 45; CI 42; CI 40; CI 41; CS].
Definition DYNAMIC_RANGE_REGEX : re :=
  rseq [ RBol; RGrp G_low (RPlus dyn_cls); RChr (one 58); RGrp G_high (RPlus dyn_cls) ].

(** regular_expressions.py:65, ELLIPSIS_LABEL_REGEX   ^[\s]*[\.\.\.]|[…][\s]*$
    (alternation binds weaker than the anchors). *)
Definition ELLIPSIS_LABEL_REGEX : re :=
  RAlt (rseq [RBol; RStar (Cls [CS]); RChr (Cls [CI 46; CI 46; CI 46])])
       (rseq [RChr (one 8230); RStar (Cls [CS]); REol]).

(** regular_expressions.py:67, LABEL_VALIDATION_REGEX   ^[a-zA-Z][\w]*$ *)
Definition LABEL_VALIDATION_REGEX : re :=
  rseq [ RBol; RChr (Cls [CR 97 122; CR 65 90]); RStar (Cls [CW]); REol ].

(** regular_expressions.py:69, LABEL_NUMERICAL_REARRANGE_REGEX   ^(\d+)(.* )  (blank after the star added) *)
Definition LABEL_NUMERICAL_REARRANGE_REGEX : re :=
  rseq [ RBol; RGrp G_1 (RPlus (Cls [CD])); RGrp G_2 (RStar AnyNL) ].

(** regular_expressions.py:71, TABLE_ID_REGEX   ^Figure (?P<id>\d+):.* *)
Definition TABLE_ID_REGEX : re :=
  rseq [ RBol; rlit (utf8 "Figure "); RGrp G_id (RPlus (Cls [CD])); RChr (one 58); RStar AnyNL ].

(** src/spex/jsonspec/document.py:79, rgx_fig_id   Figure\s+(?P<figid>[^\s^:]+).* *)
Definition FIG_ID_REGEX : re :=
  rseq [ rlit (utf8 "Figure"); RPlus (Cls [CS]); RGrp G_id (RPlus (NCls [CS; CI 94; CI 58]));
         RStar AnyNL ].
