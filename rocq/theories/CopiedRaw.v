(** CopiedRaw: descriptions of documents with copied sections. *)
From Coq Require Import Relations.
From Verif Require Import Base Types Messages Resolver Reporter Errors Context Elements SpecTree SpecResolve SpecRead SpecApi SpecQuery SpecLoad SpecLinks SpecGround SpecRaw Reads ResolverIndex ResolverFields ResolverFinal ResolverLinks ReadLinks
  PropReadProofs ApiDoc ApiInv QueryProofs LoadProofs CopiesProofs ParseOutcome PropParseProofs PropCopiesProofs RawProofs PropRawProofs ApiState Session SessionInv SessionRun RawDoc.

Section Exists.
  Context (r : heap) (HD : Doc r) (inp : text) (D : nat -> nat -> Prop).
  Context (DA : forall e, Acc (fun b a => D a b) e)
          (DO : forall e x, is_section (hget r e) -> In x (own_elements r e) -> is_section (hget r x) -> D e x)
          (DX : forall e t, is_section (hget r e) -> extends r e t -> is_section (hget r t) /\ D e t)
          (DT : forall a b d, D a b -> D b d -> D a d).
  Context (HM : no_mirrored_sections r) (HE : forall e, ends r e) (HH : forall e, hollow_comment r e = false).

  Lemma list_exists e : ends r e -> is_section (hget r e) ->
    exists l, raw_list r e l /\ forall x, In x l -> is_section (hget r x) -> D e x.
  Proof.
    induction 1 as [e Hp|e m Hm _ _|e t Ht _ IH]; intro Hs.
    - exists (own_elements r e). split; [now apply rl_own|]. intros x Hx Sx. now apply DO.
    - exfalso. now apply (HM e m).
    - destruct (DX e t Hs Ht) as [St Dt]. destruct (IH St) as (l & L1 & L2).
      destruct (without_total r (own_elements r e) l) as (l' & Hl'); [apply (own_element_keys r HD)|now apply (raw_list_keys r HD t)|].
      exists (l' ++ own_elements r e). split; [now apply (rl_extend r e t l)|]. intros x Hx Sx. apply in_app_or in Hx as [Hx|Hx]; [|now apply DO].
      apply (DT e t x Dt). apply L2; [|assumption]. eapply without_sub; eassumption.
  Qed.

  Lemma values_exist e : n_type (hget r e) <> SECTION -> exists v, value_text inp r e v.
  Proof.
    intro He. destruct (ends_path r e (doc_ends r HD e He)) as (p & Hp). destruct (value_ends inp r e p Hp) as (v & Hv). exists v. now apply value_spec.
  Qed.
  Lemma all_exist l : (forall y, In y l -> exists x, raw_tree inp r y x) -> exists xs, raw_trees inp r l xs.
  Proof.
    induction l as [|y l IH]; intro Hy; [exists []; constructor|]. destruct (Hy y (or_introl eq_refl)) as (x & Hx). destruct IH as (xs & Hxs); [intros; apply Hy; now right|].
    exists (x :: xs). now constructor.
  Qed.
  Lemma item_exists y : n_type (hget r y) = LIST_ITEM -> exists x, raw_tree inp r y x.
  Proof. intros Hy. destruct (values_exist y) as (v & Hv); [congruence|]. destruct (raw_comment_total r y (HH y)) as (c & Hc). exists (RawItem c v). now constructor. Qed.
  Lemma entry_exists y : n_type (hget r y) = FIELDSET_ENTRY -> n_key (hget r y) <> None -> exists x, raw_tree inp r y x.
  Proof.
    intros Hy Hk. destruct (values_exist y) as (v & Hv); [congruence|]. destruct (raw_comment_total r y (HH y)) as (c & Hc). destruct (n_key (hget r y)) as [k|] eqn:Ek; [|contradiction].
    exists (RawEntry c k v). now constructor.
  Qed.
  Lemma element_exists e : is_element (hget r e) -> n_key (hget r e) <> None -> exists x, raw_tree inp r e x.
  Proof.
    intros Hk Hkey. destruct (raw_comment_total r e (HH e)) as (c & Hc). unfold is_element in Hk.
    destruct (n_type (hget r e)) eqn:Ht; try contradiction; destruct (n_key (hget r e)) as [k|] eqn:Ek; try contradiction.
    all: try (destruct (values_exist e) as (v & Hv); [congruence|]).
    all: try solve [eexists; eapply rt_empty; eauto|eexists; eapply rt_field; eauto].
    all: try (destruct (item_list_total r e) as (l & Hl); [apply (doc_ends r HD); congruence|]; destruct (all_exist l) as (ys & Hys);
      [intros y Hy; destruct (item_from r e l Hl y Hy) as (e' & Hy'); apply item_exists; apply (doc_items r HD e' y Hy')|eexists; eapply rt_list; eassumption]).
    all: try (destruct (entry_list_total r HD e) as (l & Hl); [apply (doc_ends r HD); congruence|]; destruct (all_exist l) as (ys & Hys);
      [intros y Hy; destruct (entry_list_from r e l Hl y Hy) as (e' & Hy'); apply entry_exists; apply (doc_entries r HD e' y Hy')|eexists; eapply rt_fieldset; eassumption]).
  Qed.
  Lemma section_exists e : is_section (hget r e) -> n_key (hget r e) <> None -> exists x, raw_tree inp r e x.
  Proof.
    induction (DA e) as [e _ IH]. intros Hs Hk. destruct (list_exists e (HE e) Hs) as (l & L1 & L2).
    destruct (raw_comment_total r e (HH e)) as (c & Hc). destruct (n_key (hget r e)) as [k|] eqn:Ek; [|contradiction].
    destruct (all_exist l) as (xs & Hxs).
    - intros x Hx. pose proof (raw_list_keys r HD e l L1 x Hx) as Kx. destruct (raw_list_from r e l L1 x Hx) as (e' & He'). destruct (doc_elements r HD e' x He') as (_ & [X|X] & _).
      + now apply element_exists.
      + apply IH; auto.
    - eexists. eapply rt_section; eassumption.
  Qed.
  Lemma copied_exists e : e < length r -> exists x, raw_tree inp r e x.
  Proof.
    intro He. assert (n_type (hget r e) <> DOCUMENT -> n_type (hget r e) <> LIST_ITEM -> n_key (hget r e) <> None) as Hk.
    { intros H1 H2. destruct e as [|e]; [exfalso; apply H1, (doc_root r HD)|]. apply (doc_key r HD); [lia|assumption]. }
    destruct (doc_type r HD e He) as [[Ht|Ht]|[Ht|[Ht|Ht]]].
    - assert (e = 0) as ->. { destruct e as [|e]; [reflexivity|]. destruct (doc_parent r HD (S e)) as (p & _ & _ & C & _); [lia|contradiction]. }
      destruct (raw_comment_total r 0 (HH 0)) as (c & Hc). destruct (all_exist (own_elements r 0)) as (xs & Hxs).
      + intros x Hx. pose proof (own_element_keys r HD 0 x Hx) as Kx. destruct (doc_elements r HD 0 x Hx) as (_ & [X|X] & _); [now apply element_exists|now apply section_exists].
      + eexists. eapply rt_document; try eassumption. apply rl_own. apply (doc_root r HD).
    - apply section_exists; [assumption|]. apply Hk; congruence.
    - apply element_exists; [assumption|]. apply Hk; intro Z; unfold is_element in Ht; rewrite Z in Ht; destruct Ht.
    - now apply item_exists.
    - apply entry_exists; [assumption|]. apply Hk; congruence.
  Qed.
End Exists.

(** a section contains another one or copies it *)
Definition leads (h : heap) (a b : nat) : Prop :=
  template_is true h a b \/ is_section (hget h a) /\ a < b /\ b < length h /\ n_parent (hget h b) = Some a /\ is_section (hget h b).

Lemma unsettled_back h a b : leads h a b -> unsettled h b -> unsettled h a.
Proof.
  intros [(k & Hc & _)|(Ha & _ & _ & Hp & Hb)] [_ Hu].
  - split; [apply Hc|]. left. now exists k.
  - split; [assumption|]. right. destruct Hu as [[k Hk]|(i & k & Hi & Hk)].
    + exists b, k. split; [now apply enc_parent|assumption].
    + exists i, k. split; [|assumption]. clear - Hi Hp. revert Hp. induction Hi as [i p Hi|i p a' Hi _ IH]; intro Hp; [eapply enc_up; [exact Hi|now apply enc_parent]|eapply enc_up; [exact Hi|auto]].
Qed.
Lemma unsettled_back_plus h a b : clos_trans nat (leads h) a b -> unsettled h b -> unsettled h a.
Proof. induction 1 as [a b H|a b d _ I1 _ I2]; [now apply unsettled_back|auto]. Qed.
Lemma leads_up h a b : clos_trans nat (leads h) a b -> unsettled h a \/ a < b.
Proof.
  induction 1 as [a b [(k & Hc & _)|(_ & H & _)]|a b d H1 [I1|I1] H2 [I2|I2]]; auto.
  - left. split; [apply Hc|]. left. now exists k.
  - left. eapply unsettled_back_plus; eassumption.
  - right. lia.
Qed.
Lemma leads_depends h a b : clos_trans nat (leads h) a b -> unsettled h b -> clos_trans nat (depends true h) a b.
Proof.
  induction 1 as [a b H|a b d H1 I1 H2 I2]; intro Hu.
  - apply t_step. destruct H as [H|(Ha & _ & Hl & Hp & Hb)]; [now left|right]. auto.
  - eapply t_trans; [apply I1; eapply unsettled_back_plus; eassumption|auto].
Qed.

Section Parsed.
  Context {inp : text} {loc : locale} {rk : reporter_kind} {src : option text} {c : ctx} (HP : parse_context inp loc rk src = Ok c).
  Let r := c_heap c.
  Let HD : Doc r := doc_of_parse inp loc rk src c HP.

  (** without deep copies that contain sections no section shows itself *)
  Lemma no_deep_grounded : no_deep_sections r -> grounded r.
  Proof.
    intros HN i H. destruct (parsed_copies HP) as (h0 & cs & cn & HA & Hres & HR).
    assert (forall a b, merged r a b -> n_deep_copy (hget r a) = true /\ template_is true r a b) as Hm.
    { induction 1 as [a b Ht Hd|s t a b Hm IH Ha Hb Sa Sb Hk]; [auto|]. exfalso. apply (HN s a); tauto. }
    assert (forall a b, clos_trans nat (shows r) a b -> clos_trans nat (leads h0) a b) as G.
    { induction 1 as [a b [[K|K]|(Sa & Sb & K)]|]; [| | |eapply t_trans; eassumption]; apply t_step.
      - left. now apply (template_res h0 r HR).
      - left. apply (template_res h0 r HR). now apply Hm.
      - right. assert (a < b /\ b < length r) as [L1 L2].
        { assert (b < length r) as Hl. { destruct (Nat.lt_ge_cases b (length r)) as [|L]; [assumption|]. unfold hget in K. rewrite nth_overflow in K by assumption. discriminate. }
          destruct b as [|b]; [rewrite (doc_top r HD) in K; discriminate|]. destruct (doc_parent r HD (S b)) as (p & P1 & P2 & _); [lia|]. assert (p = a) as <- by congruence. auto. }
        rewrite <- (res_len _ _ HR). destruct (res_fields h0 r HR b) as (_ & _ & _ & _ & _ & _ & _ & _ & P & _).
        repeat split; try assumption; [now apply (section_res h0 r HR)|congruence|now apply (section_res h0 r HR)]. }
    apply G in H. destruct (leads_up h0 i i H) as [U|]; [|lia]. apply (rs_acyclic _ _ HR true i). now apply leads_depends.
  Qed.
  Lemma grounded_copies : grounded r -> well_founded_copies r.
  Proof. intros HG i H. apply (HG i). revert H. generalize i at 1 3. intros j H. induction H; [apply t_step; now left|eapply t_trans; eassumption]. Qed.

  Lemma raw_total_copied e : grounded r -> no_mirrored_sections r -> (forall i, hollow_comment r i = false) -> e < length r -> exists x, raw_tree inp r e x.
  Proof.
    intros HG HM HH He. destruct (parsed_copies HP) as (h0 & cs & cn & HA & Hres & HR). pose proof (resolved_links h0 cs cn r HA Hres) as HL.
    set (D := fun a b => clos_trans nat (shows r) a b /\ b < length r).
    assert (HT : forall a b d, D a b -> D b d -> D a d). { intros a b d [H1 H2] [H3 H4]. split; [eapply t_trans; eassumption|assumption]. }
    apply (copied_exists r HD inp D); try assumption.
    - apply (finite_acc _ (length r)).
      + intros i j H. apply H.
      + intros i H. apply (HG i). assert (forall a b, clos_trans nat D a b -> D a b) as G; [|apply G in H; apply H]. induction 1; [assumption|eapply HT; eassumption].
    - intros i x Si Hx Sx. pose proof (doc_own r HD i x (or_introl Hx)) as Hp. destruct (doc_elements r HD i x Hx) as (Hl & _).
      split; [|assumption]. apply t_step. right. auto.
    - intros i t Si [Hm Ht]. assert (i < length h0) as Li.
      { destruct (Nat.lt_ge_cases i (length h0)) as [|L]; [assumption|]. rewrite (over h0 r HR i L) in Si. unfold hget, is_section in Si. destruct i; discriminate. }
      assert (sec h0 i) as Se by (apply (sec_text h0 r i (lk_text _ _ HL) Li Si)). destruct (lk_ok h0 r HL i Se) as [_ HX]. destruct (HX t Ht) as [St Rt].
      split; [apply (section_res h0 r HR), AnalyzerTree.ncls_sec, St|]. split; [|unfold r; rewrite (res_len _ _ HR); apply St].
      apply (draws_plus_res h0 r HR) in Rt. clear - Rt. induction Rt; [apply t_step; now left|eapply t_trans; eassumption].
    - apply (links_end HP). now apply grounded_copies.
  Qed.
End Parsed.

Section Returned.
  Context {inp : text} {loc : locale} {rk : reporter_kind} {src : option text} {c : ctx} (HP : parse_context inp loc rk src = Ok c).

  Lemma raw_returns : grounded (c_heap c) -> no_mirrored_sections (c_heap c) -> (forall i, hollow_comment (c_heap c) i = false) ->
    forall s o cl e, reach c s -> names s o cl e -> exists x, snd (raw_of o s) = Ok x /\ raw_tree inp (c_heap c) e x.
  Proof.
    intros HN HM HH s o cl e Hs Hn. assert (e < length (c_heap c)) as He.
    { destruct Hn as (H1 & _ & <-). exact (oo_instr _ _ _ _ (iv_obj c s (inv_reach c (doc_of_parse inp loc rk src c HP) s Hs) o H1)). }
    destruct (raw_total_copied HP e HN HM HH He) as [x Hx]. exists x. split; [|assumption].
    exact (raw_complete HP s o cl e x Hs Hn Hx).
  Qed.
End Returned.

From Verif Require Import QueryExamples.
Lemma q_not_hollow : forall i, hollow_comment (c_heap (ctx_of q_doc)) i = false.
Proof.
  assert (forall h, forallb (fun i => negb (hollow_comment h i)) (seq 0 (length h)) = true -> forall i, hollow_comment h i = false) as G.
  { intros h H i. rewrite forallb_forall in H. destruct (Nat.lt_ge_cases i (length h)) as [Hl|Hl].
    - specialize (H i). destruct (hollow_comment h i); [|reflexivity]. assert (In i (seq 0 (length h))) as Hi by (apply in_seq; lia). specialize (H Hi). discriminate H.
    - unfold hollow_comment, hget. rewrite nth_overflow by assumption. reflexivity. }
  apply G. vm_compute. reflexivity.
Qed.
Lemma q_copies : exists e, is_section (hget (c_heap (ctx_of q_doc)) e) /\ n_template (hget (c_heap (ctx_of q_doc)) e) <> None.
Proof. exists 7. split; [vm_compute; reflexivity|vm_compute; discriminate]. Qed.
