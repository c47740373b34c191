(** PrintDoc: the facts about parsed documents that error reports depend on. *)
From Verif Require Import Base Types Messages Scan Analyzer TokenStep ScanProofs ScanFacts StepProofs HeapFacts AnalyzerInv
  AnalyzerLoop StepChange SpecText AnalyzerText AnalyzerTiles AnalyzerLines Context SpecTree AnalyzerTree AnalyzerBlocks
  AnalyzerFinal AnalyzerBounds AnalyzerCopies Resolver SpecResolve ResolverIndex ResolverFields ResolverSections ResolverFinal ResolverComments
  ReadLinks ApiDoc Reporter Errors SpecLookup LookupDoc ReporterFacts ParseContext ParseOutcome.

(** ranges the terminal report has styles for *)
Definition styled (rs : ranges) : Prop := forall nm s, In (nm, s) rs -> nm = R_line \/ range_style nm <> None.
Definition styled_but_copies (rs : ranges) : Prop := forall nm s, In (nm, s) rs -> nm = R_line \/ range_style nm <> None \/ nm = R_deep_copy_operator.

(** * Ranges of the instructions *)

Definition ranges_shape (n : node) : Prop :=
  styled_but_copies (n_ranges n) /\
  match ncls n with
  | CItem => rget (n_ranges n) R_key = None /\ rget (n_ranges n) R_item_operator <> None
  | CEntry => rget (n_ranges n) R_key <> None /\ rget (n_ranges n) R_entry_operator <> None
  | _ => rget (n_ranges n) R_key <> None
  end.
Definition style_b (deep : bool) (nm : rname) : bool :=
  rname_eqb nm R_line || opt_is (range_style nm) || (deep && rname_eqb nm R_deep_copy_operator).
Lemma styled_true rs : forallb (fun x => style_b false (fst x)) rs = true -> styled rs.
Proof. rewrite forallb_forall. intros H nm s Hin. specialize (H _ Hin). cbn in H. destruct nm; cbn in H; auto; try discriminate; right; discriminate. Qed.
Lemma styled_deep rs : forallb (fun x => style_b true (fst x)) rs = true -> styled_but_copies rs.
Proof. rewrite forallb_forall. intros H nm s Hin. specialize (H _ Hin). cbn in H. destruct nm; cbn in H; auto; try discriminate; right; left; discriminate. Qed.

Theorem reach_ranges inp st : reach inp st -> Forall ranges_shape (tl (a_heap st)).
Proof.
  apply reach_forall.
  - intros x y Hc. assert (stat x = stat y) as Hs by (unfold core in Hc; congruence). unfold ranges_shape. now rewrite (stat_cls _ _ Hs), (stat_ranges _ _ Hs).
  - intros g x Hg. destruct (Hg x) as (Hs & _). unfold ranges_shape. now rewrite (stat_cls _ _ Hs), (stat_ranges _ _ Hs).
  - intros lf x. pose proof (benign_cont lf x) as Hs. unfold ranges_shape. now rewrite (stat_cls _ _ Hs), (stat_ranges _ _ Hs).
  - intros st0 t e n p e' l' _ _ Hcr _ _. destruct Hcr; (split; [apply styled_deep; cbn [n_ranges set_comments set_key set_value set_parent set_template set_deep_copy set_copy new_node]|]).
    + destruct k, v; reflexivity.
    + destruct k, v; cbn; discriminate.
    + destruct v; reflexivity.
    + destruct v; cbn; split; (reflexivity || discriminate).
    + destruct k, v; reflexivity.
    + destruct k, v; cbn; split; discriminate.
    + unfold section_node. cbn. destruct (deep_op t), k, t as [[? ?]|]; reflexivity.
    + destruct k, t as [[? ?]|]; cbn; discriminate.
    + reflexivity.
    + cbn. discriminate.
    + destruct k; reflexivity.
    + destruct k; cbn; discriminate.
Qed.

(** * Lines hanging on instructions *)

Definition leaf_shape (l : leaf) : Prop := l_type l <> None /\ (l_type l = Some COMMENT \/ styled (l_ranges l)).
Definition rest_shape (n : node) : Prop := Forall leaf_shape (rest n).
Lemma shape_ml inp : forall fuel i line stop ls line', ml_lines inp fuel i line stop = Some (ls, line') -> Forall leaf_shape ls.
Proof.
  induction fuel as [|f IH]; intros i line stop ls line'; cbn [ml_lines]; [discriminate|]. destruct (find_nl_to inp i stop) as [e|].
  - destruct (ml_lines inp f (e + 1) (line + 1) stop) as [[ls0 l0]|] eqn:E; [|discriminate]. intros [= <- <-]. constructor; [|exact (IH _ _ _ _ _ E)].
    split; [discriminate|]. right. now apply styled_true.
  - intros [= <- <-]. constructor; [|constructor]. split; [discriminate|]. right. now apply styled_true.
Qed.
Lemma shape_cont inp st e t lf : is_cont inp st e t lf -> leaf_shape lf.
Proof. destruct 1; (split; [discriminate|]); right; apply styled_true; destruct v; reflexivity. Qed.
Theorem reach_rest inp st : reach inp st -> Forall rest_shape (tl (a_heap st)).
Proof.
  apply reach_forall_cont.
  - intros x y Hc. unfold core, dyn in Hc. unfold rest_shape, rest. replace (n_conts y) with (n_conts x) by congruence.
    replace (n_lines y) with (n_lines x) by congruence. replace (n_end y) with (n_end x) by congruence. auto.
  - intros g x Hg. destruct (Hg x) as (_ & G2 & G3 & G4 & _). unfold rest_shape, rest. now rewrite G2, G3, G4.
  - intros st0 t e lf x _ _ Hic Hx. apply shape_cont in Hic. unfold rest_shape, rest in *. rewrite !Forall_app in *. destruct Hx as (X1 & X2 & X3). unfold cont_upd.
    destruct (n_conts x) as [cs|]; [|destruct (itype_eqb (n_type x) EMPTY_ELEMENT)]; cbn; (split; [|now split]); rewrite ?Forall_app; auto.
  - intros st0 t e n p e' l' _ _ Hcr _ _. destruct Hcr; try (destruct v); try constructor. unfold rest_shape, rest. cbn. apply Forall_app. split.
    + unfold ml_part in H0. destruct (Nat.eqb stop e); [injection H0 as <- <- <-; constructor|]. destruct (ml_lines _ _ _ _ _) as [[ls l3]|] eqn:E; [|discriminate].
      injection H0 as <- <- <-. exact (shape_ml _ _ _ _ _ _ _ E).
    + constructor; [|constructor]. split; [discriminate|]. right. now apply styled_true.
Qed.

(** * Comments *)

Definition comments_typed (ls : list leaf) : Prop := Forall (fun l => l_type l = Some COMMENT) ls.
Record CTypes (st : ast) : Prop := {
  ct_heap : Forall (fun n => comments_typed (olist (n_comments n))) (tl (a_heap st));
  ct_meta : comments_typed (a_meta st);
  ct_open : comments_typed (olist (a_comments st))
}.
Theorem reach_comments inp st : reach inp st -> CTypes st.
Proof.
  induction 1 as [|st st' Hr [C1 C2 C3] Hlt Hs]; [repeat constructor|]. destruct (reach_inv _ _ Hr) as [HI _].
  destruct (step_change inp st st' HI ltac:(lia) Hs) as (t & e & Hsc & Hch).
  assert (a_heap st <> []) as Hne.
  { pose proof (s_len _ (i_s _ _ _ _ _ HI)). destruct (a_heap st); [cbn in *; lia|discriminate]. }
  assert (comments_typed (flush (a_meta st) (a_comments st))) as Hf by (rewrite flush_eq; apply Forall_app; auto).
  destruct Hch as [n p g e' Hcr Hp Hg Hcore Hm Hc Hix Hee|c lf Hic Hlce Hh Hm Hc Hix Hli|op v -> Hh Hm Hc Hix Hli|q -> Hh Hm Hc Hix Hli].
  - constructor; [|now rewrite Hm|rewrite Hc; constructor].
    eapply Forall_core; [|apply map_core_tl; symmetry; exact Hcore|].
    + intros x y E. unfold core in E. assert (stat x = stat y) as Es by congruence. now rewrite (stat_comments _ _ Es).
    + apply app_upd_tl_Forall; auto.
      * now rewrite (created_comments _ _ _ _ _ _ _ _ Hcr).
      * intros x Hx. destruct (Hg x) as (G1 & _). now rewrite (stat_comments _ _ G1).
  - constructor; [|now rewrite Hm|rewrite Hc; constructor]. rewrite Hh. unfold hupd. destruct c as [|c]; [now rewrite tl_upd0|]. rewrite tl_upd. apply Forall_upd; auto.
    intros x Hx. now rewrite (stat_comments _ _ (benign_cont lf x)).
  - constructor; [now rewrite Hh|now rewrite Hm|]. rewrite Hc. apply Forall_app. split; [assumption|]. constructor; [reflexivity|constructor].
  - constructor; [now rewrite Hh|now rewrite Hm|]. rewrite Hc. constructor.
Qed.

(** * Parsed documents *)

Record PDoc (h : heap) (meta : list leaf) : Prop := {
  pd_key : forall e, 0 < e < length h -> n_type (hget h e) <> LIST_ITEM -> rget (n_ranges (hget h e)) R_key <> None;
  pd_item : forall e, 0 < e < length h -> n_type (hget h e) = LIST_ITEM ->
    rget (n_ranges (hget h e)) R_key = None /\ rget (n_ranges (hget h e)) R_item_operator <> None /\ n_mirror (hget h e) = None;
  pd_entry : forall e, 0 < e < length h -> n_type (hget h e) = FIELDSET_ENTRY -> rget (n_ranges (hget h e)) R_entry_operator <> None;
  pd_lines : forall e, 0 < e < length h -> n_lines (hget h e) <> Some [];
  pd_styles : forall e, 0 < e < length h -> styled_but_copies (n_ranges (hget h e)) /\ Forall leaf_shape (hanging (hget h e));
  pd_comments : forall e, comments_typed (olist (n_comments (hget h e)));
  pd_meta : comments_typed meta
}.

Section OfParse.
  Context {inp : text} {loc : locale} {rk : reporter_kind} {src : option text} {c : ctx} (HP : parse_context inp loc rk src = Ok c).
  Local Notation h := (c_heap c).

  Lemma pdoc_parse : PDoc h (c_meta c).
  Proof.
    pose proof (proj1 (parse_ok inp loc rk src c) HP) as (st & lc & r & Ha & Hr & Ec). subst c. cbn [c_heap c_meta].
    pose proof (analysed _ _ _ Ha) as HA. pose proof (resolve_spec _ _ _ HA) as HR. rewrite Hr in HR.
    pose proof (resolve_comments (a_heap st) (a_cs st) (a_cn st)) as Hc. rewrite Hr in Hc. cbn in Hc.
    pose proof (analysed_comments _ _ _ Ha) as H0. destruct (final_reach _ _ _ Ha) as (st0 & Hr0 & _ & E0 & Em & _).
    destruct (reach_comments _ _ Hr0) as [C1 C2 C3]. pose proof (reach_rest _ _ Hr0) as G1. pose proof (reach_ranges _ _ Hr0) as G2.
    rewrite <- E0 in C1, G1, G2. pose proof (res_len _ _ HR) as HL.
    assert (forall i, text_part (hget r i) = text_part (hget (a_heap st) i)) as HT by exact (proj2 (rs_text _ _ HR)).
    assert (forall e, 0 < e < length r -> ranges_shape (hget r e)) as K.
    { intros e He. rewrite HL in He. pose proof (tl_forall _ _ G2 e He) as K. unfold ranges_shape in *. destruct (text_rest _ _ (HT e)) as (_ & -> & _).
      replace (ncls (hget r e)) with (ncls (hget (a_heap st) e)) by (symmetry; apply (res_fields _ _ HR e)). exact K. }
    assert (forall e, comments_typed (olist (n_comments (hget r e)))) as KC.
    { intro x. destruct (Hc x) as [k Hk]. rewrite Hk. destruct (Nat.eq_dec k 0) as [->|]; [rewrite (H0 0) by auto; constructor|].
      destruct (le_lt_dec (length (a_heap st)) k); [rewrite (H0 k) by auto; constructor|]. apply (tl_forall _ _ C1 k). lia. }
    constructor.
    - intros e He Ht. destruct (K e He) as [_ K1]. unfold ncls in K1. destruct (n_type (hget r e)); try congruence; cbn in K1; try exact K1; apply K1.
    - intros e He Ht. destruct (K e He) as [_ K1]. assert (ncls (hget r e) = CItem) as E by (unfold ncls; now rewrite Ht). rewrite E in K1.
      destruct K1 as [K1 K2]. split; [assumption|]. split; [assumption|]. assert (ncls (hget (a_heap st) e) = CItem) as E' by (rewrite <- E; symmetry; apply (res_fields _ _ HR e)).
      rewrite (rs_other _ _ HR e); [|congruence|intro X; apply kind_cls in X; cbn in X; congruence].
      rewrite HL in He. apply (an_pr _ _ _ HA e). lia.
    - intros e He Ht. destruct (K e He) as [_ K1]. assert (ncls (hget r e) = CEntry) as E by (unfold ncls; now rewrite Ht). rewrite E in K1. apply K1.
    - intros e He. rewrite HL in He. pose proof (b_heap _ (reach_BInv _ _ Hr0)) as B. rewrite <- E0 in B. destruct (tl_forall _ _ B e He) as (_ & _ & _ & B4 & _).
      replace (n_lines (hget r e)) with (n_lines (hget (a_heap st) e)); [exact B4|]. pose proof (HT e) as T. unfold text_part in T. congruence.
    - intros e He. split; [apply (K e He)|]. replace (hanging (hget r e)) with (olist (n_comments (hget r e)) ++ rest (hget r e)) by reflexivity.
      apply Forall_app. split.
      + eapply Forall_impl; [|apply KC]. intros l Hl. cbn in Hl. split; [congruence|now left].
      + rewrite HL in He. destruct (text_rest _ _ (HT e)) as (-> & _). exact (tl_forall _ _ G1 e He).
    - exact KC.
    - rewrite Em, flush_eq. apply Forall_app. auto.
  Qed.
End OfParse.
