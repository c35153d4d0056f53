(** C88: what the messages about a figure carry with them for the log file. *)
From Coq Require Import NArith ZArith List Bool String.
From Verif Require Import PyStr PyStrFacts Xml Json Lint RowIter Helpers Extract Document SpecLog SpecTable SpecDoc SpecRun
  DocProofs Output JsonText Cli Disk SpecOutput SpecDisk DiskProofs Messages RunLog SpecMsg MsgProofs MsgFlow Prop_Table Prop_Doc Prop_Msg Prop_Output.
Import ListNotations.
Local Open Scope string_scope.
Local Open Scope list_scope.
Local Open Scope N_scope.

(** ** Specification *)

(** The extractor a figure is read with: the document's own one for it, or one of the general
    ones. *)
Definition extractor_for (P : parser) (m : meta) (c : ecls) : Prop :=
  lookup_fig (p_fig_overrides P) (m_fig m) = Some c
  \/ (lookup_fig (p_fig_overrides P) (m_fig m) = None /\ In c extractors).
(** A message about a figure has the figure, the document (by its title and revision) and the name
    of the extractor bound to it. *)
Definition traceable (spec revision : str) (qualname : ecls -> str) (P : parser) (g : message) : Prop :=
  exists m c j, about m g
    /\ In (utf8 "doc", j) (g_extra g) /\ members j [(utf8 "spec", JStr spec); (utf8 "revision", JStr revision)]
    /\ extractor_for P m c /\ In (utf8 "extractor_cls", JStr (qualname c)) (g_extra g).

Section Bound.
Variable printable : N -> bool.
Variables spec revision : str.
Variable qualname : ecls -> str.
Variable P : parser.
Let Q (g : message) : Prop := g_extra g = [] \/ traceable spec revision qualname P g.

(** ** All messages of a computation *)

Definition every {A} (m : L A) : Prop := forall f, Forall Q (said (snd (m f))).
Lemma said_app a b : said (a ++ b) = said a ++ said b.
Proof. apply flat_map_app. Qed.
Lemma every_lift {A} (m : M A) : every (lift m).
Proof.
  intros f. unfold lift. destruct (m f) as [[r f'] t]. cbn [snd]. induction t as [|e t IH]; [constructor | exact IH].
Qed.
Lemma every_ret {A} (a : A) : every (lret a).
Proof. intros f. constructor. Qed.
Lemma every_throw {A} e : every (@lthrow A e).
Proof. intros f. constructor. Qed.
Lemma every_say g : Q g -> every (say g).
Proof. intros H f. constructor; [exact H | constructor]. Qed.
Lemma every_bind {A B} (m : L A) (k : A -> L B) : every m -> (forall a, every (k a)) -> every (lbind m k).
Proof.
  intros H K f. unfold lbind. specialize (H f). destruct (m f) as [[[a|e|] f1] t1]; cbn [snd] in *; try exact H.
  specialize (K a f1). destruct (k a f1) as [[r f2] t2]. cbn [snd] in *. rewrite said_app. apply Forall_app. split; assumption.
Qed.
Lemma every_catch {A} (m : L A) (h : exn -> L A) : every m -> (forall e, every (h e)) -> every (lcatch m h).
Proof.
  intros H K f. unfold lcatch. specialize (H f). destruct (m f) as [[[a|e|] f1] t1]; cbn [snd] in *; try exact H.
  specialize (K e f1). destruct (h e f1) as [[r f2] t2]. cbn [snd] in *. rewrite said_app. apply Forall_app. split; assumption.
Qed.
Lemma every_iter {A} (f : A -> L unit) l : (forall x, every (f x)) -> every (literM f l).
Proof. intros H. induction l as [|x l IH]; cbn [literM]; [apply every_ret | apply every_bind; [apply H | intros _; exact IH]]. Qed.

(** ** The functions that log *)

Lemma context_ok m c l s x e : extractor_for P m c -> Q (mkMessage l s (figure_context spec revision qualname m c ++ x) e).
Proof.
  intros H. right. exists m, c, (JObj [(utf8 "spec", JStr spec); (utf8 "revision", JStr revision)]). cbn [g_extra].
  split; [apply about_context|]. split; [unfold figure_context; cbn [app In]; tauto|].
  split; [|split; [exact H | unfold figure_context; cbn [app In]; tauto]].
  eexists. split; [reflexivity | apply Permutation.Permutation_refl].
Qed.
Lemma context_ok' m c l s e : extractor_for P m c -> Q (mkMessage l s (figure_context spec revision qualname m c) e).
Proof. rewrite <- (app_nil_r (figure_context _ _ _ _ _)). apply context_ok. Qed.

Section Parse.
Variable parse : meta -> elem -> L unit.
Hypothesis HP : forall m t, every (parse m t).
Lemma every_sub m data : every (log_sub_table parse m data).
Proof. apply every_iter. intros t. apply HP. Qed.
Lemma every_struct x : extractor_for P (x_meta x) (x_cls x) -> forall rows fin dyn fields,
  every (log_struct_loop spec revision qualname parse x rows fin dyn fields).
Proof.
  intros HX. induction rows as [|y rows IH]; intros fin dyn fields; cbn [log_struct_loop].
  - destruct fin; [apply every_throw | apply every_ret].
  - destruct (contains_th (y_row y)); [apply IH|]. destruct (extract_fields x (y_row y)) as [[[[a b] c] d]|].
    + destruct (_ || _).
      * destruct (is_special_case a); [apply IH|]. apply every_bind; [apply every_lift | intros r; apply IH].
      * apply every_bind; [apply every_lift|]. intros r. cbv zeta. apply every_bind.
        -- unfold log_parse_label. apply every_catch; [apply every_lift|]. intros e. apply every_bind; [apply every_say, context_ok, HX | intros _; apply every_throw].
        -- intros l. apply every_bind; [apply every_sub | intros _; apply IH].
    + destruct (startswith _ _); [apply IH|]. destruct (startswith _ _); [apply every_ret|].
      destruct (row_err_handler _ _) as [[| |] ex]; try apply IH; try apply every_ret.
      apply every_bind; [apply every_say, context_ok, HX | intros _; apply every_throw].
Qed.
Lemma every_values ov x rows : forall fin fields, every (log_value_loop parse ov x rows fin fields).
Proof.
  induction rows as [|y rows IH]; intros fin fields; cbn [log_value_loop].
  - destruct fin; [apply every_throw | apply every_ret].
  - destruct (contains_th (y_row y)); [apply IH|].
    assert (E : every (if startswith ELLIPSIS (lower (to_text (y_row y))) then log_value_loop parse ov x rows fin (fields ++ [mkVField ELLIPSIS ELLIPSIS None])
      else if startswith (utf8 "notes:") (lower (to_text (y_row y))) then lret fields else log_value_loop parse ov x rows fin fields)).
    { destruct (startswith _ _); [apply IH|]. destruct (startswith _ _); [apply every_ret | apply IH]. }
    destruct (key_elem x (y_row y)); [|exact E]. destruct (content_elem x (y_row y)); [|exact E].
    destruct (seqb _ _); [apply IH|]. apply every_bind; [apply every_lift|]. intros l. apply every_bind; [apply every_sub | intros _; apply IH].
Qed.
Lemma every_extractor m tbl hdrs c mp run : extractor_for P m c ->
  log_run_extractor spec revision qualname parse P m tbl hdrs c mp = Some run -> every run.
Proof.
  intros HX. unfold log_run_extractor. destruct (col_index _ _ _ _); [|discriminate]. destruct (col_index _ _ _ _); [|discriminate].
  destruct (col_index _ _ _ _); [|discriminate]. intros [= <-]. destruct (ec_kind c).
  - unfold log_struct_call. destruct (row_iter tbl) as [rows fin]. apply every_bind; [apply every_struct; exact HX|].
    intros [fields ex]. apply every_bind; [apply every_lift|]. intros _. apply every_bind; [apply every_lift|]. intros _.
    destruct ex as [[? ?]|]; [apply HP | apply every_ret].
  - unfold log_value_call. destruct (row_iter tbl) as [rows fin]. apply every_bind; [apply every_values|]. intros fields.
    apply every_bind; [apply every_lift|]. intros _. apply every_lift.
Qed.
End Parse.
Lemma every_error m c e : extractor_for P m c -> every (log_fig_error printable spec revision qualname P m c e).
Proof.
  intros HX. unfold log_fig_error. apply every_bind; [apply every_lift|]. intros u. apply every_bind.
  - destruct u; [apply every_say, context_ok'; exact HX|]. apply every_bind; [apply every_say, context_ok'; exact HX|]. intros _.
    apply every_bind; [apply every_say, context_ok'; exact HX|]. intros _. apply every_bind; [apply every_lift | intros _; apply every_lift].
  - intros _. destruct (m_parent m); [apply every_throw|]. destruct (p_skip P); [apply every_ret | apply every_throw].
Qed.
Lemma selected l hdrs c mp : select_extractor l hdrs = Some (c, mp) -> In c l.
Proof.
  induction l as [|c0 l IH]; cbn [select_extractor]; [discriminate|]. destruct (can_apply c0 hdrs).
  - intros [= <- _]. left. reflexivity.
  - intros H. right. apply IH. exact H.
Qed.
Lemma every_fig fuel m tbl : every (log_parse_fig printable spec revision qualname fuel P m tbl).
Proof.
  revert m tbl. induction fuel as [|n IH]; intros m tbl; cbn [log_parse_fig]; [intros f; constructor|].
  apply every_bind; [apply every_lift|]. intros _. apply every_bind; [apply every_lift|]. intros hdrs.
  destruct (lookup_fig (p_fig_overrides P) (m_fig m)) as [c|] eqn:LF.
  - destruct (can_apply c hdrs) as [mp|]; [|apply every_throw].
    destruct (log_run_extractor _ _ _ _ _ _ _ _ _ _) as [run|] eqn:E; [|apply every_throw].
    assert (X : extractor_for P m c) by (left; exact LF).
    apply every_catch; [exact (every_extractor _ IH _ _ _ _ _ _ X E) | intros e; apply every_error; exact X].
  - destruct (select_extractor extractors hdrs) as [[c mp]|] eqn:SE; [|apply every_lift].
    destruct (log_run_extractor _ _ _ _ _ _ _ _ _ _) as [run|] eqn:E; [|apply every_throw].
    assert (X : extractor_for P m c) by (right; split; [exact LF | exact (selected _ _ _ _ SE)]).
    apply every_catch; [exact (every_extractor _ IH _ _ _ _ _ _ X E) | intros e; apply every_error; exact X].
Qed.
Lemma every_tables ts : forall n, every (log_tables printable spec revision qualname P n ts).
Proof.
  induction ts as [|t ts IH]; intros n; cbn [log_tables]; [apply every_ret|]. destruct (classify t).
  - apply every_throw.
  - apply IH.
  - apply every_bind; [apply every_say; left; reflexivity|]. intros _. apply every_bind; [apply every_lift | intros _; apply IH].
  - apply every_bind; [apply every_fig | intros _; apply IH].
Qed.

(** Every message logged for a document is one about a figure without an id, which has nothing bound
    to it, or can be traced to the document, the figure and the extractor. *)
Theorem C88_traceable doc r acts : log_doc printable spec revision qualname P doc = (r, acts) ->
  Forall (fun g => g_extra g = [] \/ traceable spec revision qualname P g) (said acts).
Proof.
  unfold log_doc. pose proof (every_tables (figures doc) 0 false) as H. destruct (log_tables _ _ _ _ _ _ _ _) as [[r0 f] t]. intros [= _ <-]. exact H.
Qed.
End Bound.

(** ** A run *)

Section Run.
Variable version : str.
Variable read : str -> source.
Variable printable : N -> bool.
Variable qualname : ecls -> str.
Variable show : path -> str.
Variable printed : failure -> str.

(** The message can be traced to a document that was on the disk or written by the run. *)
Definition from_document (skip : bool) (d : disk) (w : effects) (g : message) : Prop :=
  exists p src root k v, (d p = Some (Text src) \/ In (p, src) w) /\ read src = Tree root
    /\ first_attr root "data-spec" k /\ first_attr root "data-revision" v
    /\ traceable (lower k) (lower v) qualname (get_parser skip (lower k) (lower v)) g.

Lemma stage_traceable args q d w p g : In g (json_messages printable qualname show args q (source_of read (disk_after w d p))) ->
  g_extra g = [] \/ from_document (a_skip args) d w g.
Proof.
  unfold json_messages, open_doc. destruct (source_of read (disk_after w d p)) as [|root] eqn:SO; [intros []|].
  destruct (meta_attrs (utf8 "data-spec") root) as [|k ks] eqn:K; [intros []|].
  destruct (meta_attrs (utf8 "data-revision") root) as [|v vs] eqn:V; [intros []|].
  destruct (log_doc _ _ _ _ _ _) as [r acts] eqn:L. intros I. apply in_app_or in I as [I|I].
  - pose proof (C88_traceable _ _ _ _ _ _ _ _ L) as F. rewrite Forall_forall in F. destruct (F g I) as [E|T]; [left; exact E | right].
    unfold source_of in SO. destruct (disk_after w d p) as [[s| |]|] eqn:D; try discriminate.
    exists p, s, root, k, v. split; [|split; [exact SO|]].
    + destruct (dafter_cases w d p) as [E|(s' & I' & E)]; rewrite D in E; [left; symmetry; exact E | right; injection E as ->; exact I'].
    + split; [apply first_attr_iff; exists ks; exact K|]. split; [apply first_attr_iff; exists vs; exact V | exact T].
  - left. destruct r; [|destruct I|destruct I]. destruct (reported_lint _ _); [destruct I|]. destruct I as [<-|[]]. reflexivity.
Qed.
Lemma from_more skip d w w1 w2 g : from_document skip d w g -> from_document skip d (w1 ++ w ++ w2) g.
Proof.
  intros (p & src & root & k & v & [D|I] & H); exists p, src, root, k, v; (split; [|exact H]); [left; exact D | right].
  apply in_or_app. right. apply in_or_app. left. exact I.
Qed.
Lemma process_traceable args out d p w m e gs g : process_log version read printable qualname show args out d p w m e gs -> In g gs ->
  g_extra g = [] \/ from_document (a_skip args) d w g.
Proof.
  intros P I. destruct P as [dir name src r m NS -> _ _|dir name w NS C|dir name w src r m NS C -> _ _].
  - apply stage_traceable in I as [E|F]; [left; exact E | right]. exact (from_more _ _ _ [] [_] _ F).
  - destruct I.
  - apply stage_traceable in I as [E|F]; [left; exact E | right]. pose proof (from_more _ _ _ [] [((out, json_name (html_name name)), file_text m)] _ F) as G.
    cbn [app] in G. rewrite <- app_assoc in G. exact G.
Qed.
(** Every message of a run has nothing bound to it, or names a document the run has read (by its title
    and revision), a figure and the extractor for it. *)
Theorem C89_traceable k verbose d w st es g : runs_log version read printable qualname show printed k verbose d w st es ->
  In (Msg g) es -> g_extra g = [] \/ from_document (k_skip k) d w g.
Proof.
  unfold runs_log. destruct (forallb _ _); [|intros (_ & _ & ->) []]. destruct (match k_ignore k with Some t => _ | None => _ end) as [ig|]; [|intros (_ & _ & ->) []].
  destruct (k_inputs k) as [|p ins]; [intros (_ & _ & ->) []|]. generalize (p :: ins). clear p ins. intros ins H. change (k_skip k) with (a_skip (mkArgs (k_skip k) ig)).
  induction H as [d|d p ins NS|d p ins w m e gs IS P W|d p ins w m e gs w' st es IS P W _ IH]; intros I.
  - destruct I.
  - destruct I as [[= <-]|[I|[]]]; [left; reflexivity | discriminate].
  - destruct I as [[= <-]|I]; [left; reflexivity|]. apply in_app_or in I as [I|[I|[[= <-]|I]]].
    + apply in_map_iff in I as (g' & [= ->] & I). exact (process_traceable _ _ _ _ _ _ _ _ _ P I).
    + discriminate.
    + left. reflexivity.
    + destruct verbose; [destruct I as [I|[]]; discriminate | destruct I].
  - destruct I as [[= <-]|I]; [left; reflexivity|]. apply in_app_or in I as [I|I].
    + apply in_map_iff in I as (g' & [= ->] & I). destruct (process_traceable _ _ _ _ _ _ _ _ _ P I) as [E|F]; [left; exact E | right].
      exact (from_more _ _ _ [] _ _ F).
    + destruct (IH I) as [E|(q & src & root & k0 & v & [D|J] & H)]; [left; exact E | right | right]; exists q, src, root, k0, v; (split; [|exact H]).
      * destruct (dafter_cases w d q) as [E|(s' & I' & E)]; rewrite D in E; [left; symmetry; exact E | right; injection E as ->; apply in_or_app; left; exact I'].
      * right. apply in_or_app. right. exact J.
Qed.
End Run.

(** In the example of Prop_Msg.v there are such messages, of two figures. *)
Example C88_traceable_sample :
  map (fun g => map fst (g_extra g)) (said (snd (mx_log sample_parser mx_doc)))
  = [[]; map utf8 ["entity"; "doc"; "extractor_cls"; "range"]; map utf8 ["entity"; "doc"; "extractor_cls"];
     map utf8 ["entity"; "doc"; "extractor_cls"]; map utf8 ["entity"; "doc"; "extractor_cls"]; []].
Proof. vm_compute. reflexivity. Qed.

Print Assumptions C88_traceable.
Print Assumptions C89_traceable.
