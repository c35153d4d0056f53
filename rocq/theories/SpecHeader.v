(** Independent vocabulary for the properties about table headers. *)
From Coq Require Import NArith List Bool String.
From Verif Require Import PyStr SpecText SpecLabel.
Import ListNotations.
Local Open Scope list_scope.
Local Open Scope N_scope.

(** [b] is [a] with every maximal run of spaces made one space. *)
Inductive squeezed : str -> str -> Prop :=
| sq_nil : squeezed [] []
| sq_char c a b : c <> 32 -> squeezed a b -> squeezed (c :: a) (c :: b)
| sq_run n a b : ~ begins (is_char 32) a -> squeezed a b ->
                 squeezed (repeat 32 (S n) ++ a) (32 :: b).

(** [h] is [t] without the white space at its ends. *)
Definition trims_to (t h : str) : Prop :=
  trimmed h /\ exists w1 w2, t = w1 ++ h ++ w2 /\ blanks w1 /\ blanks w2.

(** Line feeds become spaces, carriage returns are dropped. *)
Fixpoint unbroken (t : str) : str :=
  match t with
  | [] => []
  | c :: r => if c =? 13 then unbroken r else (if c =? 10 then 32 else c) :: unbroken r
  end.

(** How the text of a header cell is normalised: stripped, lower-cased, stripped, line breaks
    made spaces, runs of spaces made one, stripped. *)
Definition header_form (text h : str) : Prop :=
  exists t1 t2 t3, trims_to text t1 /\ trims_to (lower t1) t2 /\ squeezed (unbroken t2) t3
                   /\ trims_to t3 h.

(** The headers known under another name. *)
Inductive known_variant : str -> str -> Prop :=
| kv_code : known_variant (utf8 "code") (utf8 "value")
| kv_bit : known_variant (utf8 "bit") (utf8 "bits")
| kv_byte : known_variant (utf8 "byte") (utf8 "bytes").

(** The columns a table needs to be handled as ... *)
Definition has_hdr (hdrs : list str) (h : string) : Prop := In (utf8 h) hdrs.
Definition applies_bytes (hdrs : list str) : Prop :=
  has_hdr hdrs "bytes" /\ has_hdr hdrs "description".
Definition applies_bits (hdrs : list str) : Prop :=
  has_hdr hdrs "bits" /\ has_hdr hdrs "description".
Definition applies_values (hdrs : list str) : Prop :=
  ((has_hdr hdrs "value" \/ has_hdr hdrs "values")
   /\ (has_hdr hdrs "definition" \/ has_hdr hdrs "description" \/ has_hdr hdrs "power scope"))
  \/ (exists o, o <> [] /\ o <> utf8 "value"
        /\ ((hdrs = [utf8 "value"; o]) \/ (hdrs = [o; utf8 "value"] /\ o <> utf8 "values"))).

(** [h] is the first of [hdrs] that is one of [names]. *)
Definition first_of (hdrs names : list str) (h : str) : Prop :=
  exists a b, hdrs = a ++ h :: b /\ In h names /\ Forall (fun g => ~ In g names) a.
(** [k] is the last position of [h] in [hdrs]. *)
Definition last_position (hdrs : list str) (h : str) (k : nat) : Prop :=
  exists a b, hdrs = a ++ h :: b /\ List.length a = k /\ ~ In h b.

(** The header produced for a header cell with text [text]; [c] is its normalised text. *)
Definition renamed (c h : str) : Prop :=
  known_variant c h \/ ((forall v, ~ known_variant c v) /\ h = c).
Definition column_header (text h : str) : Prop := exists c, header_form text c /\ renamed c h.
