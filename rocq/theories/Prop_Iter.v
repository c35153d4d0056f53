(** C87: the rows of any table, whether or not its spans fit together.  The vocabulary is in
    SpecIter.v. *)
From Coq Require Import NArith ZArith List Bool String Lia ZifyBool.
From Verif Require Import PyStr PyStrFacts Xml Lint RowIter SpecRows SpecIter IterProofs RowProofs.
Import ListNotations.
Local Open Scope list_scope.
Local Open Scope Z_scope.

(** C87: the rows are exactly those specified. *)
Theorem C87_rows tbl rows e : row_iter tbl = (rows, e) ->
  forall ys ok, table_rows tbl ys ok <-> ys = rows /\ (ok = true <-> e = None).
Proof.
  intros E ys ok. rewrite table_rows_iff, E. cbn [fst snd]. destruct e as [e|]; cbn [ended]; split; intros [A B]; (split; [exact A|]).
  - subst ok. split; discriminate.
  - destruct ok; [|reflexivity]. destruct B as [B _]. discriminate (B eq_refl).
  - subst ok. split; reflexivity.
  - apply B. reflexivity.
Qed.
Print Assumptions C87_rows.

(** ** Spans *)
Definition col_ok (k : kid) : Prop := exists w, spans a_colspan k w.
Definition carried (S : list kid) (r : reaching) : Prop := exists td, In td S /\ snd (fst r) = (del_attr a_rowspan (fst td), snd td).
Lemma carried_more S S' r : carried S r -> carried (S ++ S') r.
Proof. intros (td & I & E). exists td. split; [apply in_or_app; left; exact I | exact E]. Qed.

Lemma filled_among c own rs out : filled c own rs out -> forall (Q : kid -> Prop), (forall d k, In (d, k) rs -> Q k) -> among Q own out.
Proof.
  assert (ALL : forall (Q : kid -> Prop) l, (forall k, In k l -> Q k) -> among Q [] l).
  { intros Q l H. induction l as [|k l IH]; [constructor|]. apply am_other; [apply H; left; reflexivity | apply IH; intros k' I; apply H; right; exact I]. }
  induction 1 as [c td own k w rest out W F IH|c td own w rest out N W F IH|c|c k rest|c d k rest D]; intros Q H.
  - apply am_other; [apply (H c k); left; reflexivity | apply IH; intros d k' I; apply (H d k'); right; exact I].
  - apply am_own, IH, H.
  - constructor.
  - apply ALL. intros k' [<-|I]; [apply (H c k); left; reflexivity|]. apply in_map_iff in I as ([d k2] & <- & I). apply (H d k2). right. exact I.
  - apply ALL. intros k' I. apply in_map_iff in I as ([d' k2] & <- & I). apply (H d' k2). right. exact I.
Qed.
Lemma among_in {A} (Q : A -> Prop) l m x : among Q l m -> In x l -> In x m.
Proof. induction 1 as [|y l m H IH|y l m O H IH]; intros I; [exact I | destruct I as [->|I]; [left; reflexivity | right; auto] | right; auto]. Qed.
Lemma among_out {A} (Q : A -> Prop) l m x : among Q l m -> In x m -> In x l \/ Q x.
Proof.
  induction 1 as [|y l m H IH|y l m O H IH]; intros I; [destruct I| |]; destruct I as [->|I]; auto.
  - left; left; reflexivity.
  - destruct (IH I); [left; right; assumption | right; assumption].
Qed.
Lemma among_refl {A} (Q : A -> Prop) l : among Q l l.
Proof. induction l; constructor; assumption. Qed.
Lemma among_weaken {A} (Q R : A -> Prop) l m : (forall x, Q x -> R x) -> among Q l m -> among R l m.
Proof. intros H. induction 1; [constructor | apply am_own | apply am_other]; auto. Qed.

Lemma filled_exists rs : forall own c, (forall td, In td own -> col_ok td) -> (forall d k, In (d, k) rs -> col_ok k) -> exists out, filled c own rs out.
Proof.
  induction rs as [|[d k] rs IHr]; intros own.
  - induction own as [|td own IH]; intros c HO HR; [eexists; constructor|].
    destruct (HO td (or_introl eq_refl)) as (w & W). destruct (IH (c + w) (fun t I => HO t (or_intror I)) HR) as (out & F). eexists. eapply fi_own; [discriminate | exact W | exact F].
  - induction own as [|td own IH]; intros c HO HR.
    + destruct (Z.eq_dec d c) as [->|N]; eexists; [apply fi_end_at | apply fi_end_off, N].
    + destruct (Z.eq_dec d c) as [->|N].
      * destruct (HR c k (or_introl eq_refl)) as (w & W). destruct (IHr (td :: own) (c + w) HO (fun d' k' I => HR d' k' (or_intror I))) as (out & F).
        eexists. eapply fi_reaching; eassumption.
      * destruct (HO td (or_introl eq_refl)) as (w & W). destruct (IH (c + w) (fun t I => HO t (or_intror I)) HR) as (out & F).
        eexists. eapply fi_own; [intros k0 r [= E _ _]; congruence | exact W | exact F].
Qed.
Lemma reach_exists tds : forall c rs, (forall td, In td tds -> spans_ok td) -> exists rs', reach_down c tds rs rs'.
Proof.
  induction tds as [|td tds IH]; intros c rs H; [eexists; constructor|]. destruct (H td (or_introl eq_refl)) as ((h & HH) & w & W).
  destruct (Z_le_gt_dec h 1) as [L|L].
  - destruct (IH (c + w) rs (fun t I => H t (or_intror I))) as (rs' & R). eexists. eapply rd_one; eassumption.
  - assert (K : exists rs1, kept (c, (del_attr a_rowspan (fst td), snd td), h) rs rs1) by (eexists; apply kept_ok). destruct K as (rs1 & K).
    destruct (IH (c + w) rs1 (fun t I => H t (or_intror I))) as (rs' & R). eexists. eapply rd_more; [exact HH | lia | exact K | exact W | exact R].
Qed.
Lemma reach_spans c tds rs rs' : reach_down c tds rs rs' -> forall td, In td tds -> spans_ok td.
Proof. induction 1 as [|c td tds h w rs rs' HH L W R IH|c td tds h w rs rs1 rs' HH L K W R IH]; intros t I; [destruct I| |]; destruct I as [<-|I]; auto; split; eauto. Qed.
Lemma kept_in r l l' x : kept r l l' -> In x l' -> x = r \/ In x l.
Proof. induction 1 as [l N|y l l' C K IH]; intros I; destruct I as [<-|I]; auto; [right; left; reflexivity|]. destruct (IH I); auto. right. right. assumption. Qed.
Lemma reach_in c tds rs rs' : reach_down c tds rs rs' -> forall r, In r rs' ->
  In r rs \/ exists td h, In td tds /\ spans a_rowspan td h /\ 1 < h /\ snd (fst r) = (del_attr a_rowspan (fst td), snd td).
Proof.
  induction 1 as [|c td tds h w rs rs' HH L W R IH|c td tds h w rs rs1 rs' HH L K W R IH]; intros r I; auto.
  - destruct (IH r I) as [A|(t & h' & A & B)]; [left; exact A | right; exists t, h'; split; [right; exact A | exact B]].
  - destruct (IH r I) as [A|(t & h' & A & B)]; [|right; exists t, h'; split; [right; exact A | exact B]].
    destruct (kept_in _ _ _ _ K A) as [->|A']; [right; exists td, h; split; [left; reflexivity | cbn; auto] | left; exact A'].
Qed.
Lemma less_in rs rs' : one_less rs rs' -> forall r, In r rs' -> exists r0, In r0 rs /\ fst r = fst r0.
Proof.
  induction 1 as [|c k n rs rs' N H IH|c k n rs rs' N H IH]; intros r I; [destruct I| |].
  - destruct (IH r I) as (r0 & A & B). exists r0. split; [right; exact A | exact B].
  - destruct I as [<-|I]; [exists (c, k, n); split; [left|]; reflexivity|]. destruct (IH r I) as (r0 & A & B). exists r0. split; [right; exact A | exact B].
Qed.
Lemma less_exists rs : exists rs', one_less rs rs'.
Proof. eexists. apply less_iff. reflexivity. Qed.
Lemma spans_one td h : spans a_rowspan (del_attr a_rowspan (fst td), snd td) h -> h = 1.
Proof. intros H. apply spans_iff in H. cbn [fst] in H. rewrite rowspan_del in H. congruence. Qed.

Lemma kids_td (ks : list kid) : (forall k, In k ks -> e_tag (fst k) = t_td) -> filter (fun k : kid => seqb (e_tag (fst k)) t_td) ks = ks.
Proof. intros H. induction ks as [|k ks IH]; [reflexivity|]. cbn [filter]. rewrite (H k (or_introl eq_refl)), seqb_refl. f_equal. apply IH. intros k' I. apply H. right. exact I. Qed.
Lemma own_td e k : In k (kids_of t_td e) -> e_tag (fst k) = t_td.
Proof. unfold kids_of. intros I. apply filter_In in I as [_ I]. apply seqb_eq in I. exact I. Qed.

(** Cells of [S] reach into the row; those reaching further are of [S] or of the row. *)
Lemma shown_row S rs y y' : (forall td, In td S -> e_tag (fst td) = t_td) -> Forall (carried S) rs -> row_shown rs y y' ->
  among (fun k => exists td, In td S /\ repeated td k) (kids_of t_td (y_row y)) (kids_of t_td (y_row y'))
  /\ e_tag (y_row y') = e_tag (y_row y) /\ e_attrs (y_row y') = e_attrs (y_row y).
Proof.
  intros ST CR [[_ ->]|(_ & tds & F & ->)]; [split; [apply among_refl | auto]|]. split; [|auto]. cbn [y_row].
  assert (AM : among (fun k => exists td, In td S /\ repeated td k) (kids_of t_td (y_row y)) tds).
  { apply (filled_among _ _ _ _ F). intros d k I. apply in_map_iff in I as ([[d0 k0] n] & E & I). injection E as <- <-. rewrite Forall_forall in CR.
    destruct (CR _ I) as (td & A & B). exists td. split; [exact A | exact B]. }
  replace (kids_of t_td (Elem (e_tag (y_row y)) (e_attrs (y_row y)) [] tds)) with tds; [exact AM|]. symmetry. unfold kids_of at 1. cbn [e_kids]. apply kids_td.
  intros k I. destruct (among_out _ _ _ _ AM I) as [J|(td & J & ->)]; [exact (own_td _ _ J)|]. cbn [fst del_attr e_tag]. destruct td as [[tg at0 tx ks] tl]. exact (ST _ J).
Qed.
Lemma step_carries S rs y y' rs' : (forall td, In td S -> e_tag (fst td) = t_td) -> Forall (carried S) rs -> row_step rs y y' rs' ->
  Forall (carried (S ++ kids_of t_td (y_row y))) rs'.
Proof.
  intros ST CR (rs1 & SH & RD & OL). destruct (shown_row S rs y y' ST CR SH) as (AM & _ & _). apply Forall_forall. intros r I.
  destruct (less_in _ _ OL r I) as (r0 & I0 & E). rewrite Forall_forall in CR.
  destruct (reach_in _ _ _ _ RD r0 I0) as [A|(td & h & A & HH & L & B)].
  - destruct (CR _ A) as (td & T & B). exists td. split; [apply in_or_app; left; exact T | rewrite E; exact B].
  - destruct (among_out _ _ _ _ AM A) as [J|(td0 & J & ->)]; [|apply spans_one in HH; lia]. exists td. split; [apply in_or_app; right; exact J | rewrite E; exact B].
Qed.

Lemma shown_at rs trs ys ok : rows_shown rs trs ys ok -> forall S, (forall td, In td S -> e_tag (fst td) = t_td) -> Forall (carried S) rs ->
  (List.length ys <= List.length trs)%nat /\ (ok = true -> List.length ys = List.length trs)
  /\ forall i y y', nth_error trs i = Some y -> nth_error ys i = Some y' ->
       (children t_th (y_row y) <> [] -> y' = y)
       /\ (children t_th (y_row y) = [] ->
             e_tag (y_row y') = e_tag (y_row y) /\ e_attrs (y_row y') = e_attrs (y_row y)
             /\ among (fun k => exists td, (In td S \/ data_cells (firstn i (map y_row trs)) td) /\ repeated td k) (kids_of t_td (y_row y)) (kids_of t_td (y_row y'))).
Proof.
  induction 1 as [rs|rs y rest ys ok TH H IH|rs y y' rs' rest ys ok TH ST H IH|rs y rest TH N]; intros S HS CR.
  - cbn. split; [lia|]. split; [reflexivity|]. intros [|i] z z' A; discriminate.
  - destruct (IH S HS CR) as (L & LO & R). cbn [List.length]. split; [lia|]. split; [intros E; rewrite (LO E); reflexivity|]. intros [|i] z z' A B; cbn in A, B.
    + injection A as <-. injection B as <-. split; [reflexivity | intros C; contradiction].
    + destruct (R i z z' A B) as [R1 R2]. split; [exact R1|]. intros C. destruct (R2 C) as (E1 & E2 & AM). split; [exact E1|]. split; [exact E2|].
      eapply among_weaken; [|exact AM]. intros k (td & D & E). exists td. split; [|exact E]. destruct D as [D|(tr & D & D')]; [left; exact D | right; exists tr; split; [right; exact D | exact D']].
  - assert (HS' : forall td, In td (S ++ kids_of t_td (y_row y)) -> e_tag (fst td) = t_td).
    { intros td I. apply in_app_or in I as [I|I]; [exact (HS _ I) | exact (own_td _ _ I)]. }
    destruct (IH _ HS' (step_carries _ _ _ _ _ HS CR ST)) as (L & LO & R). cbn [List.length]. split; [lia|]. split; [intros E; rewrite (LO E); reflexivity|]. intros [|i] z z' A B; cbn in A, B.
    + injection A as <-. injection B as <-. split; [intros C; contradiction|]. intros _. destruct ST as (rs1 & SH & _). destruct (shown_row S rs y y' HS CR SH) as (AM & E1 & E2).
      split; [exact E1|]. split; [exact E2|]. eapply among_weaken; [|exact AM]. intros k (td & D & E). exists td. auto.
    + destruct (R i z z' A B) as [R1 R2]. split; [exact R1|]. intros C. destruct (R2 C) as (E1 & E2 & AM). split; [exact E1|]. split; [exact E2|].
      eapply among_weaken; [|exact AM]. intros k (td & D & E). exists td. split; [|exact E]. destruct D as [D|(tr & D & D')].
      * apply in_app_or in D as [D|D]; [left; exact D | right; exists (y_row y); split; [left; reflexivity | split; [exact TH | exact D]]].
      * right; exists tr; split; [right; exact D | exact D'].
  - cbn. split; [lia|]. split; [discriminate|]. intros [|i] z z' _ B; discriminate.
Qed.

(** C87: the rows given are the first rows of the table that have cells, all of them unless an
    error ends it.  A row with header cells is given as it is.  Of any other row the own cells
    are all given, in their order; the other cells are cells of rows above it. *)
Theorem C87_cells tbl rows e trs : row_iter tbl = (rows, e) -> with_cells tbl trs ->
  (List.length rows <= List.length trs)%nat /\ (e = None -> List.length rows = List.length trs)
  /\ forall i tr y, nth_error trs i = Some tr -> nth_error rows i = Some y ->
       (children t_th tr <> [] -> y_row y = tr)
       /\ (children t_th tr = [] ->
             e_tag (y_row y) = e_tag tr /\ e_attrs (y_row y) = e_attrs tr
             /\ among (fun k => exists td, data_cells (firstn i trs) td /\ repeated td k) (kids_of t_td tr) (kids_of t_td (y_row y))).
Proof.
  intros E (ys & C & ->). pose proof (table_rows_ok tbl) as (ys0 & C0 & R). rewrite E in R. cbn [fst snd] in R. rewrite <- (cell_rows_fun _ _ _ C C0) in R.
  destruct (shown_at _ _ _ _ R [] ltac:(intros td []) (Forall_nil _)) as (L & LO & RR). rewrite map_length. split; [exact L|].
  split; [intros ->; exact (LO eq_refl)|]. intros i tr y A B. rewrite nth_error_map in A. destruct (nth_error ys i) as [y0|] eqn:Y; [|discriminate]. injection A as <-.
  destruct (RR i y0 y Y B) as [R1 R2]. split; [intros H; rewrite (R1 H); reflexivity|]. intros H. destruct (R2 H) as (E1 & E2 & AM). split; [exact E1|]. split; [exact E2|].
  eapply among_weaken; [|exact AM]. intros k (td & [[]|D] & Q). exists td. auto.
Qed.
Print Assumptions C87_cells.

Lemma ends_from rs trs ys ok : rows_shown rs trs ys ok -> forall S, (forall td, In td S -> e_tag (fst td) = t_td /\ spans_ok td) -> Forall (carried S) rs ->
  (ok = true <-> forall td, data_cells (map y_row trs) td -> spans_ok td).
Proof.
  assert (FST : forall y rest td, children t_th (y_row y) = [] -> In td (kids_of t_td (y_row y)) -> data_cells (map y_row (y :: rest)) td).
  { intros y rest td T I. exists (y_row y). split; [left; reflexivity | auto]. }
  assert (NXT : forall y rest td, data_cells (map y_row rest) td -> data_cells (map y_row (y :: rest)) td).
  { intros y rest td (tr & I & D). exists tr. split; [right; exact I | exact D]. }
  induction 1 as [rs|rs y rest ys ok TH H IH|rs y y' rs' rest ys ok TH ST H IH|rs y rest TH N]; intros S HS CR.
  - split; [intros _ td (tr & [] & _) | reflexivity].
  - rewrite (IH S HS CR). split; intros A td D; apply A; [|apply NXT, D]. destruct D as (tr & [<-|I] & T & D); [contradiction | exists tr; auto].
  - pose proof (proj1 (shown_row S rs y y' (fun td I => proj1 (HS td I)) CR ltac:(destruct ST as (? & SH & _); exact SH))) as AM.
    assert (OWN : forall td, In td (kids_of t_td (y_row y)) -> spans_ok td).
    { intros td I. destruct ST as (rs1 & _ & RD & _). exact (reach_spans _ _ _ _ RD td (among_in _ _ _ _ AM I)). }
    assert (HS' : forall td, In td (S ++ kids_of t_td (y_row y)) -> e_tag (fst td) = t_td /\ spans_ok td).
    { intros td I. apply in_app_or in I as [I|I]; [exact (HS _ I) | split; [exact (own_td _ _ I) | exact (OWN _ I)]]. }
    rewrite (IH _ HS' (step_carries _ _ _ _ _ (fun td I => proj1 (HS td I)) CR ST)). split; intros A td D; [|apply A, NXT, D].
    destruct D as (tr & [<-|I] & T & D); [exact (OWN _ D) | apply A; exists tr; auto].
  - split; [discriminate|]. intros A. exfalso.
    assert (OWN : forall td, In td (kids_of t_td (y_row y)) -> spans_ok td) by (intros td I; apply A, FST; assumption).
    assert (COL : forall d k, In (d, k) (map fst rs) -> col_ok k).
    { intros d k I. apply in_map_iff in I as ([[d0 k0] n] & E & I). injection E as <- <-. rewrite Forall_forall in CR. destruct (CR _ I) as (td & T & B). cbn [snd fst] in B. subst k0.
      destruct (HS td T) as [_ (_ & w & W)]. exists w. apply spans_iff in W. apply spans_iff. cbn [fst]. rewrite colspan_del. exact W. }
    assert (SH : exists y', row_shown rs y y').
    { destruct rs as [|r rs0] eqn:ER; [exists y; left; auto|]. destruct (filled_exists (map fst (r :: rs0)) (kids_of t_td (y_row y)) 0 (fun td I => proj2 (OWN td I)) COL) as (tds & F).
      eexists. right. split; [discriminate|]. exists tds. split; [exact F | reflexivity]. }
    destruct SH as (y' & SH). pose proof (proj1 (shown_row S rs y y' (fun td I => proj1 (HS td I)) CR SH)) as AM.
    destruct (reach_exists (kids_of t_td (y_row y')) 0 rs) as (rs1 & RD).
    { intros td I. destruct (among_out _ _ _ _ AM I) as [J|(td0 & J & ->)]; [exact (OWN _ J)|]. destruct (HS _ J) as [_ (_ & w & W)]. split.
      - exists 1. apply spans_iff. cbn [fst]. apply rowspan_del.
      - exists w. apply spans_iff in W. apply spans_iff. cbn [fst]. rewrite colspan_del. exact W. }
    destruct (less_exists rs1) as (rs' & OL). apply (N y' rs'). exists rs1. auto.
Qed.

(** C87: the rows come to an end exactly if the spans of all cells, header rows apart, are
    integers or missing. *)
Theorem C87_ends tbl rows e trs : row_iter tbl = (rows, e) -> with_cells tbl trs ->
  (e = None <-> forall td, data_cells trs td -> spans_ok td).
Proof.
  intros E (ys & C & ->). pose proof (table_rows_ok tbl) as (ys0 & C0 & R). rewrite E in R. cbn [fst snd] in R. rewrite <- (cell_rows_fun _ _ _ C C0) in R.
  rewrite <- (ends_from _ _ _ _ R [] ltac:(intros td []) (Forall_nil _)). destruct e; cbn [ended]; split; congruence.
Qed.
Print Assumptions C87_ends.

(** ** Examples *)
Local Open Scope string_scope.
Local Open Scope list_scope.
Definition it_cell (rs cs t : string) : kid := (Elem t_td [(a_rowspan, utf8 rs); (a_colspan, utf8 cs)] (utf8 t) [], []).
Definition it_row (ks : list kid) : kid := (Elem t_tr [] [] ks, []).
(** Spans that do not fit: the row below begins with a cell as wide as both columns. *)
Definition it_wide : elem := Elem t_table [] []
  [it_row [it_cell "1" "1" "a"; it_cell "2" "1" "b"; it_cell "2" "1" "c"]; it_row [it_cell "1" "2" "d"]; it_row []; it_row [it_cell "1" "1" "e"]].
Example C87_ex : map (fun y => map to_text (children t_td (y_row y))) (fst (row_iter it_wide))
    = [[utf8 "a"; utf8 "b"; utf8 "c"]; [utf8 "d"; utf8 "c"]; [utf8 "e"]]
  /\ snd (row_iter it_wide) = None.
Proof. split; vm_compute; reflexivity. Qed.
(** A cell that reaches into a row is not always given in it: so "b" above. *)
Theorem C87_all_cells_refuted : exists tbl rows td y,
  row_iter tbl = (rows, None) /\ spans a_rowspan td 2 /\ In td (flat_map (kids_of t_td) (firstn 1 (children t_tr tbl)))
  /\ nth_error rows 1 = Some y /\ forall k, repeated td k -> ~ In k (kids_of t_td (y_row y)).
Proof.
  exists it_wide, (fst (row_iter it_wide)), (it_cell "2" "1" "b"). eexists. split; [|split; [|split; [|split]]].
  - vm_compute. reflexivity.
  - vm_compute. reflexivity.
  - right. left. reflexivity.
  - vm_compute. reflexivity.
  - intros k -> I. vm_compute in I. destruct I as [I|[I|[]]]; discriminate.
Qed.
Print Assumptions C87_all_cells_refuted.
(** A span that is not an integer ends it, after the rows above. *)
Definition it_bad : elem := Elem t_table [] [] [it_row [it_cell "1" "1" "a"]; it_row [it_cell "x" "1" "b"]; it_row [it_cell "1" "1" "c"]].
Example C87_ex_bad : map (fun y => map to_text (children t_td (y_row y))) (fst (row_iter it_bad)) = [[utf8 "a"]] /\ snd (row_iter it_bad) = Some EValueError.
Proof. split; vm_compute; reflexivity. Qed.
Example C87_ex_cells : with_cells it_wide (map fst (filter (fun k => negb (seqb (to_text (fst k)) [])) (e_kids it_wide))).
Proof. eexists. split; [apply cell_rows_ok | vm_compute; reflexivity]. Qed.
