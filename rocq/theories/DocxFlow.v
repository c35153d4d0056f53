(** Facts about the parsed docx document: table ids are digits. *)
From Coq Require Import NArith ZArith List Bool String Lia.
From Verif Require Import PyTables PyStr PyStrFacts Xml Docx Render SpecText SpecFmt SpecGrid SpecHtml GridProofs HtmlProofs TableHtml Prop_Html.
Import ListNotations.
Local Open Scope list_scope.

Lemma digit_safe c : isdigit c = true -> safe_char c.
Proof. intros H. unfold safe_char. repeat split; intros ->; discriminate H. Qed.
Lemma find_id_safe rows : match find_id rows with Some i => Forall safe_char i | None => True end.
Proof.
  destruct (find_id rows) as [n|] eqn:E; [|exact Logic.I]. apply C53_id in E as (_ & _ & _ & _ & _ & _ & _ & _ & _ & _ & [_ N] & _).
  eapply Forall_impl; [|exact N]. apply digit_safe.
Qed.

Section Safe.
Variable pa : list welem -> seen -> dres (list hunit * seen).
Hypothesis PA : forall st s us s', pa st s = DOk (us, s') -> Forall ids_safe us.

Lemma parse_table_safe tbl s u s' : parse_table pa tbl s = DOk (Some u, s') -> ids_safe u.
Proof.
  intros H. destruct (parse_table_cells pa tbl s u s' H) as (m & rows & _ & -> & F). apply ids_safe_table. split; [apply find_id_safe|].
  clear H. induction F as [|r r' m rows F _ IH]; constructor; [|exact IH]. clear IH.
  induction F as [|ig c r r' (us & s1 & s2 & C & ->) _ IH]; constructor; [|exact IH]. unfold cell_safe. cbn [tc_elems]. exact (PA _ _ _ _ C).
Qed.
End Safe.

Section Doc.
Variable d : docx.
Lemma parse_list_safe st u st' : parse_list d st = DOk (u, st') -> ids_safe u.
Proof.
  unfold parse_list. destruct st as [|p st]; [discriminate|].
  destruct (list_head d p) as [[[l a] i]| |]; cbn [dbind]; try discriminate.
  destruct (list_elems d _ _ a i) as [[its st2]| |]; cbn [dbind]; try discriminate. intros [= <- <-]. exact Logic.I.
Qed.
Lemma parse_any_safe fuel : forall st s us s', parse_any d fuel st s = DOk (us, s') -> Forall ids_safe us.
Proof.
  induction fuel as [|f IH]; intros st s us s' H; cbn [parse_any] in H; [discriminate|].
  destruct st as [|cur rest]; [injection H as <- <-; constructor|].
  destruct (is_tag "w:tbl" cur).
  - destruct (parse_table (parse_any d f) cur s) as [[t s1]| |] eqn:T; cbn [dbind] in H; try discriminate.
    destruct (parse_any d f rest s1) as [[us' s2]| |] eqn:E; cbn [dbind] in H; try discriminate. injection H as <- <-.
    destruct t as [u|]; [constructor; [exact (parse_table_safe _ IH _ _ _ _ T)|]|]; exact (IH _ _ _ _ E).
  - destruct (is_tag "w:p" cur); [|exact (IH _ _ _ _ H)].
    destruct (is_list_p d cur) as [[]| |]; cbn [dbind] in H; try discriminate.
    + destruct (parse_list d (cur :: rest)) as [[u st']| |] eqn:L; cbn [dbind] in H; try discriminate.
      destruct (parse_any d f st' s) as [[us' s2]| |] eqn:E; cbn [dbind] in H; try discriminate. injection H as <- <-.
      constructor; [exact (parse_list_safe _ _ _ L) | exact (IH _ _ _ _ E)].
    + unfold parse_paragraph in H. destruct (parse_spans d cur) as [sps| |]; cbn [dbind] in H; try discriminate.
      destruct (parse_any d f rest s) as [[us' s2]| |] eqn:E; cbn [dbind] in H; try discriminate. injection H as <- <-.
      destruct sps; [|constructor; [exact Logic.I|]]; exact (IH _ _ _ _ E).
Qed.
Lemma parse_tables_safe tbls : forall s us s', parse_tables d tbls s = DOk (us, s') -> Forall ids_safe us.
Proof.
  induction tbls as [|t tbls IH]; intros s us s' H; cbn [parse_tables] in H; [injection H as <- <-; constructor|].
  destruct (parse_table _ t s) as [[u s1]| |] eqn:T; cbn [dbind] in H; try discriminate.
  destruct (parse_tables d tbls s1) as [[us' s2]| |] eqn:E; cbn [dbind] in H; try discriminate. injection H as <- <-.
  destruct u as [u|]; [constructor; [exact (parse_table_safe _ (parse_any_safe _) _ _ _ _ T)|]|]; exact (IH _ _ _ E).
Qed.
Lemma parse_docx_safe us : parse_docx d = DOk us -> Forall ids_safe us.
Proof.
  unfold parse_docx. destruct (parse_tables d _ []) as [[us' s]| |] eqn:E; cbn [dbind]; try discriminate. intros [= <-]. exact (parse_tables_safe _ _ _ _ E).
Qed.
End Doc.
