(** ApiDoc: the facts about parsed documents that the element API relies on. *)
From Coq Require Import Relations.
From Verif Require Import Base Types Scan Analyzer TokenStep HeapFacts AnalyzerInv AnalyzerLoop SpecTree AnalyzerTree
  AnalyzerFinal AnalyzerCopies Resolver SpecResolve ResolverIndex ResolverFields ResolverSections ResolverFinal
  Reporter Errors Context SpecText SpecRead Reads ReadOps ReadLinks PropReadProofs SpecApi.

Record Doc (r : heap) : Prop := {
  doc_root : 0 < length r /\ n_type (hget r 0) = DOCUMENT /\ plain r 0;
  doc_elements : forall e x, In x (own_elements r e) ->
    x < length r /\ (is_element (hget r x) \/ is_section (hget r x)) /\ n_key (hget r x) <> None;
  doc_entries : forall e x, In x (own_entries r e) -> x < length r /\ n_type (hget r x) = FIELDSET_ENTRY /\ n_key (hget r x) <> None;
  doc_items : forall e x, In x (own_items r e) -> x < length r /\ n_type (hget r x) = LIST_ITEM;
  doc_ends : forall e, n_type (hget r e) <> SECTION -> ends r e;
  doc_list : forall e m, n_type (hget r e) = LIST -> mirrors r e m \/ extends r e m -> n_type (hget r m) = LIST;
  doc_list_own : forall e, n_type (hget r e) = LIST -> n_mirror (hget r e) = None -> n_items (hget r e) <> None;
  doc_fieldset : forall e m, n_type (hget r e) = FIELDSET -> mirrors r e m \/ extends r e m -> n_type (hget r m) = FIELDSET;
  doc_fieldset_own : forall e, n_type (hget r e) = FIELDSET -> n_mirror (hget r e) = None -> n_entries (hget r e) <> None;
  doc_empty : forall e, n_type (hget r e) = EMPTY_ELEMENT -> plain r e /\ n_items (hget r e) = None /\ n_entries (hget r e) = None;
  doc_fresh : fresh r;
  doc_nodup : forall e, NoDup (own_elements r e);
  doc_top : n_parent (hget r 0) = None;
  doc_parent : forall e, 0 < e < length r -> exists p, n_parent (hget r e) = Some p /\ p < e /\ n_type (hget r e) <> DOCUMENT /\
    (is_element (hget r e) \/ is_section (hget r e) -> is_container (hget r p)) /\
    (n_type (hget r e) = LIST_ITEM \/ n_type (hget r e) = FIELDSET_ENTRY -> is_element (hget r p));
  doc_own : forall e x, In x (own_elements r e) \/ In x (own_items r e) \/ In x (own_entries r e) -> n_parent (hget r x) = Some e;
  doc_type : forall e, e < length r -> is_container (hget r e) \/ is_element (hget r e) \/ n_type (hget r e) = LIST_ITEM \/ n_type (hget r e) = FIELDSET_ENTRY;
  doc_key : forall e, 0 < e < length r -> n_type (hget r e) <> LIST_ITEM -> n_key (hget r e) <> None
}.

Section OfParse.
  Context (h0 : heap) (cs cn : list (text * list nat)) (HA : Analysed h0 cs cn) (r : heap) (HR : Resolved h0 r).
  Let HD := an_d _ _ _ HA.
  Let HS := an_s _ _ _ HA.

  Lemma cls_res i : ncls (hget r i) = ncls (hget h0 i). Proof. apply (res_fields h0 r HR i). Qed.
  Lemma path_ends e p : path r e p -> ends r e.
  Proof.
    induction 1 as [e H1 H2|e m p Hf Hp IH]; [now apply en_plain|]. destruct Hf as [Hf|Hf]; [eapply en_mirror|eapply en_extend]; eassumption.
  Qed.
  Lemma ends_path e : ends r e -> exists p, path r e p.
  Proof.
    induction 1 as [e [H1 H2]|e m H1 H2 (p & Hp)|e m H1 H2 (p & Hp)].
    - exists [e]. now apply path_end.
    - exists (e :: p). eapply path_on; [left; exact H1|assumption].
    - exists (e :: p). eapply path_on; [right; exact H1|assumption].
  Qed.

  Lemma over e : length h0 <= e -> hget r e = hget [] e.
  Proof. intro H. unfold hget. rewrite nth_overflow by (rewrite (res_len h0 r HR); assumption). destruct e; reflexivity. Qed.

  (** the instruction of a non-section element *)
  Lemma element_cases e : is_element (hget r e) -> of_kind false (hget h0 e) /\
    (n_template (hget h0 e) = None /\ hget r e = hget h0 e \/ exists t, template_is false h0 e t /\ copied_as h0 r e t).
  Proof.
    intro He. assert (of_kind false (hget h0 e)) as Ke by (apply (of_kind_res h0 r HR false e); exact He). split; [assumption|].
    pose proof (elem_final h0 r HR e Ke) as F. inversion F as [i Hi Ei|i t tn n Ht Hf Hc Ei]; subst.
    - left. split; [assumption|]. congruence.
    - right. exists t. split; [assumption|]. eapply copy_cases; eassumption.
  Qed.
  Lemma element_lt e : is_element (hget r e) -> e < length h0.
  Proof. intro H. apply (of_kind_res h0 r HR false e) in H. now apply elem_lt in H. Qed.

  Lemma empty_plain e : n_type (hget r e) = EMPTY_ELEMENT -> plain r e /\ n_items (hget r e) = None /\ n_entries (hget r e) = None.
  Proof.
    intro E. assert (is_element (hget r e)) as He by (unfold is_element; now rewrite E).
    assert (n_type (hget h0 e) = EMPTY_ELEMENT -> n_items (hget r e) = None /\ n_entries (hget r e) = None) as G.
    { intro E0. pose proof (d_type _ HD e (element_lt e He)) as [_ T]. rewrite E0 in T. destruct T as ((T1 & T2 & _) & _).
      destruct (res_fields h0 r HR e) as (_ & _ & _ & F1 & F2 & _). now rewrite F1, F2. }
    destruct (element_cases e He) as [Ke [[Ht Er]|(t & Ht & [m E0 Ex Em Hm Ety Ee|E0 Em Ex Ett Ety|E0 Em Ex Ett Ety])]].
    - split; [|apply G; congruence]. destruct (pristine_over h0 cs cn HA e) as (P1 & P2 & _). split; rewrite Er; assumption.
    - exfalso. rewrite E in Ee. destruct Ety as [Ety|[Ety|[Ety|Ety]]]; rewrite Ety in Ee; discriminate.
    - exfalso. destruct Ety as [Ety|Ety]; congruence.
    - split; [split; assumption|]. apply G. congruence.
  Qed.

  Lemma mirror_same m t : n_mirror (hget r t) = Some m -> is_element (hget r t) ->
    n_type (hget r m) = n_type (hget r t) \/ n_type (hget r m) = MULTILINE_FIELD_BEGIN /\ n_type (hget r t) = FIELD.
  Proof.
    intros Em He. pose proof (proj1 (element_cases t He)) as Kt. pose proof (elem_final h0 r HR t Kt) as F. clear He.
    remember (hget r t) as n eqn:En. symmetry in En. rewrite <- En. rewrite <- En in Em. revert En m Em.
    induction F as [t Ht|t t' tn n Ht Hf IH Hc]; intros En m Em.
    - destruct (pristine_over h0 cs cn HA t) as (P1 & P2 & _). congruence.
    - destruct (template_elem _ _ _ Ht) as [_ Kt']. assert (hget r t' = tn) as Et'.
      { eapply final_fun; [apply (elem_final h0 r HR t' Kt')|eassumption]. }
      destruct (copy_cases h0 cs cn HA r HR t t' Ht) as [m' E0 Ex Em' Hm' Ety Ee|E0 Em' Ex Ett Ety|E0 Em' Ex Ett Ety]; try congruence.
      assert (m' = m) as -> by congruence. destruct (n_mirror (hget r t')) as [m2|] eqn:Em2.
      + subst m2. destruct (IH Kt' Et' m eq_refl) as [G|[G1 G2]].
        * rewrite G, Ee. destruct (n_type (hget r t')); auto.
        * right. split; [assumption|]. rewrite Ee, G2. reflexivity.
      + subst m. rewrite Ee. destruct (n_type (hget r t')); auto.
  Qed.

  Lemma group_link e m ty : ty = LIST \/ ty = FIELDSET -> n_type (hget r e) = ty -> mirrors r e m \/ extends r e m -> n_type (hget r m) = ty.
  Proof.
    intros Hty He. assert (is_element (hget r e)) as K by (unfold is_element; rewrite He; now destruct Hty as [-> | ->]). intros [Hm|[Hm1 Hm2]].
    - destruct (mirror_same m e Hm K) as [G|[_ G]]; [congruence|]. destruct Hty; congruence.
    - destruct (element_cases e K) as [Ke [[Ht Er]|(t & Ht & [m' E0 Ex Em Hm' Ety Ee|E0 Em Ex Ett Ety|E0 Em Ex Ett Ety])]]; try congruence.
      destruct (pristine_over h0 cs cn HA e) as (P1 & P2 & _). congruence.
  Qed.
  Lemma group_own e : n_mirror (hget r e) = None -> (n_type (hget r e) = LIST -> n_items (hget r e) <> None) /\
    (n_type (hget r e) = FIELDSET -> n_entries (hget r e) <> None).
  Proof.
    intro Hm. assert (n_type (hget r e) = LIST \/ n_type (hget r e) = FIELDSET -> is_element (hget r e) /\ n_type (hget h0 e) = n_type (hget r e)) as K.
    { intro Hty. assert (is_element (hget r e)) as K by (unfold is_element; now destruct Hty as [-> | ->]). split; [assumption|].
      destruct (element_cases e K) as [Ke [[Ht Er]|(t & Ht & [m' E0 Ex Em Hm' Ety Ee|E0 Em Ex Ett Ety|E0 Em Ex Ett Ety])]]; congruence. }
    split; intro E; (destruct K as [K1 K2]; [auto|]); destruct (own_given h0 cs cn HA r HR e (proj1 (element_cases e K1))) as [O1 O2]; [apply O1|apply O2]; congruence.
  Qed.

  Lemma doc_of : Doc r.
  Proof.
    pose proof (res_len h0 r HR) as HL.
    assert (Hown : forall e, (olist (n_items (hget r e)) = ids (item_of e) h0 \/ olist (n_items (hget r e)) = []) /\
      (olist (n_entries (hget r e)) = ids (entry_of e) h0 \/ olist (n_entries (hget r e)) = []) /\
      (n_elements (hget r e) = ids (elem_of e) h0 \/ n_elements (hget r e) = [])).
    { intro e. destruct (Nat.lt_ge_cases e (length h0)) as [He|He].
      - destruct (res_fields h0 r HR e) as (_ & _ & E1 & E2 & E3 & _). rewrite E1, E2, E3.
        rewrite (d_items _ HD e He), (d_entries _ HD e He), (d_elems _ HD e He). auto.
      - rewrite (over e He). unfold hget. destruct e; cbn; auto. }
    assert (Hkey : forall x, 0 < x < length h0 -> ncls (hget h0 x) <> CItem -> n_key (hget r x) <> None).
    { intros x Hx Hc. destruct (res_fields h0 r HR x) as (E & _). rewrite E. destruct (an_key _ _ _ HA x Hx); [contradiction|assumption]. }
    constructor.
    - pose proof (s_len _ HS). split; [lia|]. pose proof (s_doc _ HS) as Hd.
      assert (hget r 0 = hget h0 0) as E0. { apply (rs_other _ _ HR); [congruence|]. intro K. apply kind_cls in K. cbn in K. congruence. }
      rewrite E0. split; [unfold ncls in Hd; destruct (n_type (hget h0 0)); cbn in Hd; congruence|].
      destruct (pristine_over h0 cs cn HA 0) as (P1 & P2 & _). split; rewrite E0; assumption.
    - intros e x Hx. unfold own_elements in Hx. destruct (proj2 (proj2 (Hown e))) as [E|E]; rewrite E in Hx; [|destruct Hx].
      apply in_ids in Hx as [Hx1 Hx2]. unfold elem_of, has_parent, is_cls in Hx2. apply andb_true_iff in Hx2 as [Hp Hx2].
      assert (x <> 0) as Hx0. { intros ->. rewrite (s_docp _ HS) in Hp. discriminate. }
      rewrite HL. split; [assumption|]. apply orb_true_iff in Hx2. assert (ncls (hget h0 x) = CSec \/ ncls (hget h0 x) = CElem) as Hc.
      { destruct Hx2 as [Hx2|Hx2]; apply nclass_eqb_eq in Hx2; auto. }
      split; [|apply Hkey; [lia|destruct Hc; congruence]]. rewrite <- cls_res in Hc. destruct Hc as [Hc|Hc]; [right; now apply ncls_sec|left; now apply ncls_elem].
    - intros e x Hx. change (own_entries r e) with (olist (n_entries (hget r e))) in Hx. destruct (proj1 (proj2 (Hown e))) as [E|E]; rewrite E in Hx; [|destruct Hx].
      apply in_ids in Hx as [Hx1 Hx2]. unfold entry_of, has_parent, is_cls in Hx2. apply andb_true_iff in Hx2 as [Hp Hx2].
      assert (x <> 0) as Hx0. { intros ->. rewrite (s_docp _ HS) in Hp. discriminate. }
      apply nclass_eqb_eq in Hx2. split; [lia|]. split; [|apply Hkey; [lia|congruence]]. rewrite <- cls_res in Hx2. now apply ncls_entry.
    - intros e x Hx. change (own_items r e) with (olist (n_items (hget r e))) in Hx. destruct (proj1 (Hown e)) as [E|E]; rewrite E in Hx; [|destruct Hx].
      apply in_ids in Hx as [Hx1 Hx2]. unfold item_of, has_parent, is_cls in Hx2. apply andb_true_iff in Hx2 as [Hp Hx2].
      apply nclass_eqb_eq in Hx2. split; [lia|]. rewrite <- cls_res in Hx2. now apply ncls_item.
    - intros e He. destruct (can_read h0 cs cn HA r HR e) as (p & Hp & _); [|eapply path_ends; eassumption].
      rewrite <- cls_res. now rewrite ncls_sec.
    - intros e m. apply group_link. now left.
    - intros e H1 H2. now apply group_own.
    - intros e m. apply group_link. now right.
    - intros e H1 H2. now apply group_own.
    - apply empty_plain.
    - apply (res_fresh h0 cs cn HA r HR).
    - intro e. unfold own_elements. destruct (proj2 (proj2 (Hown e))) as [E|E]; rewrite E; [|constructor]. unfold ids. apply NoDup_filter, seq_NoDup.
    - destruct (res_fields h0 r HR 0) as (_ & _ & _ & _ & _ & _ & _ & _ & -> & _). apply (s_docp _ HS).
    - intros e He. destruct (s_node _ HS e) as (p & Hp & Hlt & Hpl); [lia|]. exists p.
      destruct (res_fields h0 r HR e) as (_ & _ & _ & _ & _ & _ & _ & _ & -> & _). split; [assumption|]. split; [assumption|].
      unfold placed in Hpl. rewrite <- (cls_res e), <- (cls_res p) in Hpl. unfold sec_like in Hpl. rewrite <- (cls_res p) in Hpl.
      rewrite <- !ncls_sec, <- !ncls_elem, <- !ncls_item, <- !ncls_entry. unfold is_container.
      assert (ncls (hget r p) = CDoc -> n_type (hget r p) = DOCUMENT) as Kd by (unfold ncls; destruct (n_type (hget r p)); cbn; congruence).
      assert (ncls (hget r p) = CSec -> n_type (hget r p) = SECTION) as Ks by (unfold ncls; destruct (n_type (hget r p)); cbn; congruence).
      assert (n_type (hget r e) = DOCUMENT -> ncls (hget r e) = CDoc) as Ke by (unfold ncls; intros ->; reflexivity).
      split; [intro Hd; rewrite (Ke Hd) in Hpl; contradiction|].
      destruct (ncls (hget r e)); (split; [intros [K|K]|intros [K|K]]); try discriminate; tauto.
    - intros e x Hx. destruct (res_fields h0 r HR x) as (_ & _ & _ & _ & _ & _ & _ & _ & -> & _).
      assert (forall f : node -> bool, In x (ids f h0) -> f (hget h0 x) = true) as G by (intros f K; now apply in_ids in K).
      assert (has_parent e (hget h0 x) = true -> n_parent (hget h0 x) = Some e) as P.
      { unfold has_parent. destruct (n_parent (hget h0 x)) as [q|]; [|discriminate]. intro K. apply Nat.eqb_eq in K. congruence. }
      apply P. destruct Hx as [Hx|[Hx|Hx]].
      + unfold own_elements in Hx. destruct (proj2 (proj2 (Hown e))) as [E|E]; rewrite E in Hx; [|destruct Hx]. apply G in Hx. unfold elem_of in Hx. now apply andb_true_iff in Hx.
      + change (own_items r e) with (olist (n_items (hget r e))) in Hx. destruct (proj1 (Hown e)) as [E|E]; rewrite E in Hx; [|destruct Hx]. apply G in Hx. unfold item_of in Hx. now apply andb_true_iff in Hx.
      + change (own_entries r e) with (olist (n_entries (hget r e))) in Hx. destruct (proj1 (proj2 (Hown e))) as [E|E]; rewrite E in Hx; [|destruct Hx]. apply G in Hx. unfold entry_of in Hx. now apply andb_true_iff in Hx.
    - intros e He. destruct e as [|e].
      { left. left. pose proof (s_doc _ HS) as Hd. rewrite <- cls_res in Hd. unfold ncls in Hd. destruct (n_type (hget r 0)); cbn in Hd; congruence. }
      destruct (s_node _ HS (S e)) as (p & Hp & Hlt & Hpl); [lia|]. unfold placed in Hpl. rewrite <- (cls_res (S e)) in Hpl.
      unfold is_container. rewrite <- !ncls_elem, <- !ncls_item, <- !ncls_entry. pose proof (ncls_sec (hget r (S e))) as Ks. unfold is_section in Ks. rewrite <- Ks.
      destruct (ncls (hget r (S e))); tauto.
    - intros e He Ht. apply Hkey; [lia|]. rewrite <- cls_res. now rewrite ncls_item.
  Qed.
End OfParse.

Lemma doc_of_parse inp loc rk src c : parse_context inp loc rk src = Ok c -> Doc (c_heap c).
Proof. intro H. destruct (parsed H) as (h0 & cs & cn & HA & HR). eapply doc_of; eassumption. Qed.
