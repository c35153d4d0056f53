(** Properties C16, C17, C18, C19 and C62: exactly which label and brief a cell gives, in the
    vocabulary of SpecNames and SpecTable. *)
From Coq Require Import NArith ZArith List Bool String Lia.
From Verif Require Import PyStr PyStrFacts Regexes Xml Json Lint Helpers Extract SpecText SpecLabel SpecHeader SpecNames NameProofs
  SpecTable CellRead LabelProofs.
Import ListNotations.
Local Open Scope list_scope.
Local Open Scope N_scope.

(** C19: the normalised label, exactly. *)
Theorem C19_exact : forall s l, normalize_label s = l <-> normal s l.
Proof. intros s l. symmetry. apply normal_iff. Qed.
Print Assumptions C19_exact.
Example C19_exact_ex : normal (utf8 " I/O  Queue-Size ") (utf8 "IO_QUEUE_SIZE").
Proof. apply C19_exact. vm_compute. reflexivity. Qed.

(** C62: the label with the number moved, exactly. *)
Theorem C62_exact : forall s t, rearrange_num_label s = t <-> moved s t.
Proof. intros s t. symmetry. apply moved_iff. Qed.
Print Assumptions C62_exact.
Example C62_exact_ex : moved (utf8 "64_bit") (utf8 "bit_64").
Proof. apply C62_exact. vm_compute. reflexivity. Qed.

(** C16: the brief, exactly; and there is one reading of every content. *)
Theorem C16_exact : forall t o, content_extract_brief t BRIEF_MAXLEN = o <-> brief_told t o.
Proof. intros t o. symmetry. apply brief_iff. Qed.
Print Assumptions C16_exact.
Theorem C16_unique : forall t, exists o, brief_told t o /\ forall o', brief_told t o' -> o' = o.
Proof.
  intros t. exists (content_extract_brief t BRIEF_MAXLEN). split; [apply brief_iff; reflexivity|].
  intros o' H. apply brief_iff in H. congruence.
Qed.
Print Assumptions C16_unique.
Example C16_exact_ex :
  brief_told (utf8 "Flag (FLG):  the flag..") (Some (utf8 "the flag"))
  /\ brief_told (utf8 "Flag (FLG)") None
  /\ brief_told (utf8 "Flag (FLG): short. But what follows it is more than sixty characters in all.") (Some (utf8 "short"))
  /\ brief_told (utf8 "Flag (FLG): a sentence that is a good deal longer than the sixty characters a brief may have") None.
Proof. split; [|split; [|split]]; refine (proj1 (C16_exact _ _) _); vm_compute; reflexivity. Qed.

(** C17: the label of a struct row is read from every text, and it is the one named here. *)
Theorem C17_exact : forall x s key f l, x_fig x <> [] ->
  (exists f' evs, parse_label x s key f = (Ok l, f', evs))
  <-> exists raw n, label_source (x_content x =? x_label x)%nat s raw /\ normal raw n /\ l = lower n.
Proof.
  intros x s key f l Hx. split.
  - intros (f' & evs & H). destruct (label_inv _ _ _ _ _ _ _ Hx H) as (raw & n & A & B & C). exists raw, n. split; [exact A|]. split; [exact B | exact C].
  - intros (raw & n & A & B & ->). destruct (label_run x s key raw f Hx A) as (evs & E). apply normal_iff in B. rewrite B in E. exists f, evs. exact E.
Qed.
Print Assumptions C17_exact.
Theorem C17_read : forall x s key f, x_fig x <> [] -> exists l f' evs, parse_label x s key f = (Ok l, f', evs).
Proof.
  intros x s key f Hx. destruct (source_total (x_content x =? x_label x)%nat s) as (raw & A). destruct (label_run x s key raw f Hx A) as (evs & E). eexists _, _, _. exact E.
Qed.
Print Assumptions C17_read.
Example C17_exact_ex : label_source true (utf8 "Number of Queues: the count") (utf8 "noq")
  /\ normal (utf8 "noq") (utf8 "NOQ") /\ label_source false (utf8 "Queue Count: x") (utf8 "Queue Count").
Proof.
  split; [|split; [apply C19_exact; vm_compute; reflexivity|]].
  - destruct (words_of_exists (utf8 "Number of Queues")) as (us & W). pose proof (words_of_words _ _ W) as E. vm_compute in E. subst us.
    change (utf8 "noq") with (lower (first_letters [utf8 "Number"; utf8 "of"; utf8 "Queues"])).
    eapply la_name; [reflexivity | apply struct_text_iff; vm_compute; reflexivity | discriminate | vm_compute; intuition discriminate | exact W].
  - apply (la_before false (utf8 "Queue Count: x") (utf8 "Queue Count") (utf8 " x")); [reflexivity | reflexivity | vm_compute; intuition discriminate].
Qed.

(** C18: a value row has a label exactly if its label cell has a paragraph, and it is the one
    named here. *)
Theorem C18_exact : forall x row key content f l, x_fig x <> [] -> nth_error (children t_td row) (x_content x) = Some content ->
  (exists f' evs, extract_value_label x row key content f = (Ok l, f', evs))
  <-> exists s, label_cell_text x row s /\ value_label (x_content x =? x_label x)%nat s l.
Proof.
  intros x row key content f l Hx CT. split.
  - intros (f' & evs & H). exact (value_inv _ _ _ _ _ _ _ _ Hx CT H).
  - intros (s & A & B). destruct (value_run x row key content s l f Hx CT A B) as (evs & E). exists f, evs. exact E.
Qed.
Print Assumptions C18_exact.
Theorem C18_unique : forall same s, exists l, value_label same s l /\ forall l', value_label same s l' -> l' = l.
Proof.
  intros same s. destruct (value_label_total same s) as (l & H). exists l. split; [exact H|]. intros l' H'. eapply value_label_fun; eassumption.
Qed.
Print Assumptions C18_unique.
Example C18_exact_ex : value_label true (utf8 "64_Byte Mode: on") (utf8 "BYTE_MODE_64").
Proof.
  pose proof (vl_name true (utf8 "64_Byte Mode: on") (utf8 "64_Byte Mode") (utf8 "BYTE_MODE_64")) as X. apply X; clear X.
  - reflexivity.
  - vm_compute. discriminate.
  - apply value_text_split. vm_compute. reflexivity.
  - discriminate.
  - apply value_name_iff. vm_compute. reflexivity.
Qed.
