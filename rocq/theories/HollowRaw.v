(** HollowRaw: raw() of a document describes everything in it. *)
From Coq Require Import Relations.
From Verif Require Import Base Types Messages Analyzer Resolver Reporter Errors Context Elements SpecTree SpecResolve SpecRead SpecApi SpecQuery SpecLoad SpecLinks SpecGround SpecRaw Reads HeapFacts AnalyzerInv AnalyzerCopies ResolverIndex ResolverFields ResolverFinal ResolverLinks ReadLinks
  PropReadProofs PropAnalysisProofs ApiDoc ApiInv QueryProofs LoadProofs CopiesProofs ParseOutcome PropParseProofs PropCopiesProofs RawProofs PropRawProofs ApiState Session SessionInv SessionRun RawDoc InheritProofs CopiedRaw.

Lemma trees_in inp h l xs : raw_trees inp h l xs -> forall y, In y l -> exists x, raw_tree inp h y x.
Proof. induction 1 as [|e l x xs Hx _ IH]; intros y Hy; [destruct Hy|]. destruct Hy as [<-|Hy]; [eauto|auto]. Qed.

Lemma final_whole h0 i n : final h0 i n -> n_mirror (hget h0 i) = None -> n_type (hget h0 i) = LIST \/ n_type (hget h0 i) = FIELDSET ->
  n_type n = n_type (hget h0 i) /\ n_mirror n = None.
Proof.
  destruct 1 as [i H|i t tn n Ht Hf Hc]; intros Hm Hk; [auto|].
  assert (n_type (inherited tn (hget h0 i)) = n_type (hget h0 i) /\ n_mirror (inherited tn (hget h0 i)) = n_mirror (hget h0 i)) as [E1 E2].
  { unfold inherited. destruct (n_comments tn), (n_comments (hget h0 i)); auto. }
  unfold consol in Hc. rewrite E1 in Hc. cbn [set_copy n_type n_mirror].
  destruct Hk as [Hk|Hk]; rewrite Hk in *; destruct (n_type tn); try discriminate; injection Hc as <-; cbn [set_copy set_extend n_type n_mirror]; split; congruence.
Qed.

Section Parsed.
  Context {inp : text} {loc : locale} {rk : reporter_kind} {src : option text} {c : ctx} (HP : parse_context inp loc rk src = Ok c).
  Local Notation r := (c_heap c).
  Let HD : Doc r := doc_of_parse inp loc rk src c HP.

  Lemma part_of i : 0 < i < length r -> exists p, p < i /\
    (is_container (hget r p) /\ In i (own_elements r p) \/
     n_type (hget r p) = LIST /\ n_mirror (hget r p) = None /\ In i (own_items r p) \/
     n_type (hget r p) = FIELDSET /\ n_mirror (hget r p) = None /\ In i (own_entries r p)).
  Proof.
    intro Hi. destruct (parsed_heaps HP) as (st & lc & Ha & HA & Hr & HR). pose proof (document_is_tree _ _ _ Ha) as (T1 & T2 & T3 & T4 & T5).
    rewrite (res_len _ _ HR) in Hi. destruct (T4 i Hi) as (p & P1 & P2 & P3). exists p. split; [assumption|].
    destruct (T5 p ltac:(lia)) as (E1 & E2 & E3). destruct (res_fields _ _ HR p) as (_ & _ & F0 & F1 & F2 & _).
    assert (forall f, f (n_type (hget (a_heap st) i)) = true -> In i (children f (a_heap st) p)) as K.
    { intros f Hf. apply filter_In. split; [apply in_seq; lia|]. now rewrite P1, Nat.eqb_refl, Hf. }
    assert (n_type (hget (a_heap st) p) = LIST \/ n_type (hget (a_heap st) p) = FIELDSET -> n_type (hget r p) = n_type (hget (a_heap st) p) /\ n_mirror (hget r p) = None) as W.
    { intro Hk. eapply final_whole; [|apply (an_pr _ _ _ HA); lia|assumption]. apply (rs_elem _ _ HR); [lia|]. cbn. unfold is_element. destruct Hk as [-> | ->]; exact I. }
    assert (t_elem (n_type (hget (a_heap st) i)) = true -> is_container (hget (a_heap st) p) -> is_container (hget r p) /\ In i (own_elements r p)) as KE.
    { intros Hf Hc. split; [|unfold own_elements; rewrite F0, E1; now apply K]. 
      destruct Hc as [Hc|Hc]; [left|right; now apply (section_res _ r HR)].
      destruct p as [|p]; [apply (doc_root r HD)|]. exfalso. destruct (T4 (S p)) as (q & _ & _ & Q); [lia|]. unfold well_placed in Q. now rewrite Hc in Q. }
    unfold well_placed in P3. destruct (n_type (hget (a_heap st) i)) eqn:Et; try contradiction; destruct P3 as [P3 _].
    all: try (left; apply KE; [reflexivity|assumption]).
    all: right.
    - right. destruct (W (or_intror P3)) as [W1 W2]. split; [congruence|]. split; [assumption|]. unfold own_entries. rewrite F2. fold (opt_list (n_entries (hget (a_heap st) p))). rewrite E3. now apply K.
    - left. destruct (W (or_introl P3)) as [W1 W2]. split; [congruence|]. split; [assumption|]. unfold own_items. rewrite F1. fold (opt_list (n_items (hget (a_heap st) p))). rewrite E2. now apply K.
  Qed.
  Lemma own_listed e l : raw_list r e l -> forall x, In x (own_elements r e) -> In x l.
  Proof. destruct 1; intros x Hx; [assumption|]. apply in_or_app. now right. Qed.
  Lemma own_itemed e l : item_list r e l -> n_mirror (hget r e) = None -> forall x, In x (own_items r e) -> In x l.
  Proof. destruct 1 as [e H|e m l H _|e t l H _]; intros Hm x Hx; [assumption|unfold mirrors in H; congruence|apply in_or_app; now right]. Qed.
  Lemma own_entered e l : entry_list r e l -> n_mirror (hget r e) = None -> forall x, In x (own_entries r e) -> In x l.
  Proof. destruct 1 as [e H|e m l H _|e t l l' H _ _]; intros Hm x Hx; [assumption|unfold mirrors in H; congruence|apply in_or_app; now right]. Qed.

  Lemma all_described x0 : raw_tree inp r 0 x0 -> forall i, i < length r -> exists x, raw_tree inp r i x.
  Proof.
    intros H0 i. induction i as [i IH] using (well_founded_induction lt_wf). intro Hi. destruct (Nat.eq_dec i 0) as [->|Hz]; [eauto|].
    destruct (part_of i) as (p & Hp & Hk); [lia|]. destruct (IH p Hp) as [x Hx]; [lia|].
    destruct Hk as [[Hc Hin]|[(Ht & Hm & Hin)|(Ht & Hm & Hin)]].
    - assert (exists l xs, raw_list r p l /\ raw_trees inp r l xs) as (l & xs & Hl & Hxs).
      { destruct Hc as [Hc|Hc]; inversion Hx; subst; try congruence; eauto; intuition congruence. }
      eapply trees_in; [exact Hxs|]. eapply own_listed; eassumption.
    - assert (exists l xs, item_list r p l /\ raw_trees inp r l xs) as (l & xs & Hl & Hxs).
      { inversion Hx; subst; try congruence; eauto; intuition congruence. }
      eapply trees_in; [exact Hxs|]. eapply own_itemed; eassumption.
    - assert (exists l xs, entry_list r p l /\ raw_trees inp r l xs) as (l & xs & Hl & Hxs).
      { inversion Hx; subst; try congruence; eauto; intuition congruence. }
      eapply trees_in; [exact Hxs|]. eapply own_entered; eassumption.
  Qed.
  Lemma none_hollow x0 : raw_tree inp r 0 x0 -> forall i, hollow_comment r i = false.
  Proof.
    intros H0 i. destruct (Nat.lt_ge_cases i (length r)) as [Hi|Hi].
    - destruct (all_described x0 H0 i Hi) as [x Hx]. assert (exists cm, raw_comment r i cm) as [cm Hc] by (inversion Hx; subst; eauto).
      unfold raw_comment in Hc. unfold hollow_comment in *. destruct (n_comments (hget r i)); [apply Hc|reflexivity].
    - unfold hollow_comment, hget. rewrite nth_overflow by assumption. reflexivity.
  Qed.

  Lemma returns_exactly : grounded r -> forall s o cl, reach c s -> names s o cl 0 ->
    ((exists x, snd (raw_of o s) = Ok x) <-> no_mirrored_sections r /\ forall i, hollow_comment r i = false).
  Proof.
    intros HN s o cl Hs Hn. split.
    - intros [x Hx]. split; [exact (document_unmirrored HP s o cl x Hs Hn Hx)|]. apply (none_hollow x).
      apply (document_only HP s o cl x); try assumption. apply (links_end HP). now apply grounded_copies.
    - intros [HM HH]. destruct (raw_returns HP HN HM HH s o cl 0 Hs Hn) as (x & Hx & _). now exists x.
  Qed.

  Lemma then_all : (forall i, ends r i) -> forall s o cl x, reach c s -> names s o cl 0 -> snd (raw_of o s) = Ok x ->
    forall s' o' cl' e, reach c s' -> names s' o' cl' e -> exists y, snd (raw_of o' s') = Ok y /\ raw_tree inp r e y.
  Proof.
    intros HE s o cl x Hs Hn Hx s' o' cl' e Hs' Hn'. pose proof (proj1 (document_only HP s o cl x HE Hs Hn) Hx) as H0.
    assert (e < length r) as He. { destruct Hn' as (H1 & _ & <-). exact (oo_instr _ _ _ _ (iv_obj c s' (inv_reach c HD s' Hs') o' H1)). }
    destruct (all_described x H0 e He) as [y Hy]. exists y. split; [|assumption]. exact (raw_complete HP s' o' cl' e y Hs' Hn' Hy).
  Qed.
End Parsed.
