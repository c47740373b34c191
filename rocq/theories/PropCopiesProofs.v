(** PropCopiesProofs: the statements of PropCopies for parsed documents. *)
From Coq Require Import Relations.
From Verif Require Import Base Types Messages Resolver Reporter Errors Context Elements SpecTree SpecResolve SpecRead SpecApi SpecQuery SpecLinks ResolverIndex ResolverFinal Reads ReadLinks
  ApiDoc ApiInv ApiState ApiOps SessionInv QueryProofs Session SessionRun CopiesProofs PropQueryProofs ParseOutcome PropParseProofs.

(** ** Instantiation that returns has followed all links *)
Lemma instantiate_child_ctx cl o e s : s_ctx (fst (instantiate_child cl o e s)) = s_ctx s.
Proof.
  unfold instantiate_child, mbind, new_obj, alloc, inode, lift, oset. cbn.
  destruct (key_or (n_key (hget (c_heap (s_ctx s)) e))); reflexivity.
Qed.
Lemma mapM_ctx {A B} (f : A -> sM B) l : (forall x s, s_ctx (fst (f x s)) = s_ctx s) -> forall s, s_ctx (fst (mapM f l s)) = s_ctx s.
Proof.
  intro Hf. induction l as [|x l IH]; intro s; [reflexivity|]. cbn [mapM]. unfold mbind. pose proof (Hf x s) as E. destruct (f x s) as [s1 [y|ex]]; cbn in *; [|assumption].
  pose proof (IH s1) as E1. destruct (mapM f l s1) as [s2 [ys|ex]]; cbn in *; congruence.
Qed.
Lemma instantiate_ends fuel : forall o e s s', instantiate_elements fuel o e s = (s', Ok tt) -> ends (c_heap (s_ctx s)) e.
Proof.
  induction fuel as [|f IH]; intros o e s s'; cbn [instantiate_elements]; [discriminate|].
  unfold mbind at 1. unfold inode. destruct (n_mirror (hget (c_heap (s_ctx s)) e)) as [m|] eqn:Em.
  - intro H. apply (en_mirror _ e m Em). eapply IH. exact H.
  - unfold mbind at 1. unfold not_indexed at 1. unfold mbind at 1.
    match goal with |- context [mapM ?g ?l s] => pose proof (mapM_ctx g l (instantiate_child_ctx CSectionElement o) s) as E; destruct (mapM g l s) as [s1 [xs|ex]] end; [|discriminate].
    cbn [fst] in E. unfold mbind at 1. unfold append_children, oset. destruct (n_extend (hget (c_heap (s_ctx s)) e)) as [t|] eqn:Et.
    + intro H. apply (en_extend _ e t (conj Em Et)). apply IH in H. cbn [upd_obj s_ctx] in H. now rewrite E in H.
    + intros _. now apply en_plain.
Qed.

Section Parsed.
  Context {inp : text} {loc : locale} {rk : reporter_kind} {src : option text} {c : ctx} (HP : parse_context inp loc rk src = Ok c).
  Let r := c_heap c.

  Lemma parsed_copies : exists h0 cs cn, Analysed h0 cs cn /\ resolve h0 cs cn = ROk r /\ Resolved h0 r.
  Proof.
    pose proof HP as HP'. apply parse_ok in HP' as (st & lc & h & Ha & Hr & Ec). pose proof (analysed _ _ _ Ha) as HA. pose proof (resolve_spec _ _ _ HA) as Hs.
    rewrite Hr in Hs. assert (r = h) as -> by (unfold r; now rewrite Ec). eauto 6.
  Qed.

  Lemma links_end : well_founded_copies r -> forall e, ends r e.
  Proof. destruct parsed_copies as (h0 & cs & cn & HA & Hr & HR). eapply all_ends; eassumption. Qed.
  Lemma no_deep_end : no_deep_sections r -> well_founded_copies r.
  Proof. destruct parsed_copies as (h0 & cs & cn & HA & Hr & HR). now apply (plain_copies h0 r HR). Qed.

  Lemma sections_answer : well_founded_copies r -> forall s o e key, reach c s -> names s o CSection e -> exists ys, snd (section_elements o key s) = Ok ys.
  Proof.
    intros Hw s o e key Hs HN. destruct (element_list_total r (doc_of_parse inp loc rk src c HP) e (links_end Hw e)) as (L & HL).
    destruct (query_elements HP s o e key L Hs HN HL) as (ys & E & _). eauto.
  Qed.
  Lemma ends_here s e : Inv c s -> ends (c_heap (s_ctx s)) e -> ends r e.
  Proof.
    intros HI Ei. pose proof (co_heap _ _ _ (iv_ctx _ _ HI)) as C. clear - Ei C. revert Ei. induction 1 as [e [A B]|e m A _ IH|e t [A B] _ IH].
    - apply en_plain. unfold plain, r. split; [rewrite <- (ca_mirror _ _ _ e C)|rewrite <- (ca_extend _ _ _ e C)]; assumption.
    - apply (en_mirror r e m); [|assumption]. unfold mirrors in *. unfold r. rewrite <- (ca_mirror _ _ _ e C). assumption.
    - apply (en_extend r e t); [|assumption]. unfold extends in *. unfold r. rewrite <- (ca_mirror _ _ _ e C), <- (ca_extend _ _ _ e C). auto.
  Qed.
  (** exactly when the first request for the elements comes back *)
  Lemma first_answer s o e key : reach c s -> names s o CSection e -> o_children (oget s o) = None ->
    ((exists ys, snd (section_elements o key s) = Ok ys) <-> ends r e) /\ (~ ends r e -> snd (section_elements o key s) = Raise Fuel).
  Proof.
    pose proof (doc_of_parse inp loc rk src c HP) as HD. intros Hs HN Hn. pose proof (inv_reach c HD s Hs) as HI.
    assert (G : forall ys, snd (section_elements o key s) = Ok ys -> ends r e).
    { intros ys. unfold section_elements, mbind at 1, touch_obj, oset. unfold by_key.
      assert (K : forall l, snd (section_children o (upd_obj o with_touched s)) = Ok l -> ends r e).
      { intro l. unfold section_children, mbind at 1, the_obj. rewrite (touched_get o s o), Nat.eqb_refl. destruct HN as (Ho & Hc & He).
        destruct (Nat.ltb_spec o (length (s_objs s))); [|lia]. cbn [andb]. cbn [with_touched o_children]. rewrite Hn. unfold mbind at 1, oset. unfold mbind at 1, hfuel. unfold mbind at 1.
        cbn [with_touched o_instr]. rewrite He. match goal with |- context [instantiate_elements ?f ?o ?e ?s] => destruct (instantiate_elements f o e s) as [s2 [[]|x]] eqn:Ei end; [|discriminate].
        intros _. apply instantiate_ends in Ei. cbn in Ei.
        exact (ends_here s e HI Ei). }
      destruct key as [[|ch k]|]; try apply K. unfold mbind. destruct (section_children o (upd_obj o with_touched s)) as [s2 [l|x]] eqn:El; [|discriminate].
      intros _. apply (K l). reflexivity. }
    split; [split|].
    - intros (ys & E). exact (G ys E).
    - intro He. destruct (element_list_total r HD e He) as (L & HL). destruct (query_elements HP s o e key L Hs HN HL) as (ys & E & _). eauto.
    - intro He. destruct (hits_any c HD _ CSection o e key s (section_spec c HD) (or_introl eq_refl) HI HN) as (s' & v & ids & E & Hv).
      unfold section_elements, mbind, touch_obj, oset in *. rewrite E in *. cbn [snd] in *. destruct Hv as [(-> & _)|(ys & -> & _)]; [reflexivity|].
      exfalso. apply He. exact (G ys eq_refl).
  Qed.

  Lemma document_list L : section_list r 0 L -> element_list r 0 L.
  Proof.
    pose proof (doc_of_parse inp loc rk src c HP) as HD. destruct (doc_root _ HD) as (_ & Ht & Hp).
    intro H. inversion H as [e E|e t l l' E]; subst; [now apply li_own|]. destruct E as (k & (_ & K & _) & _). cbn in K. unfold is_section in K. fold r in K, Ht. congruence.
  Qed.
  Lemma container_list e L : is_container (hget r e) -> e < length r -> copied_plainly r e -> section_list r e L -> element_list r e L.
  Proof.
    intros [Hc|Hc] He Hp HL.
    - assert (e = 0) as ->; [|now apply document_list]. destruct e as [|e]; [reflexivity|].
      destruct (doc_parent _ (doc_of_parse inp loc rk src c HP) (S e)) as (p & _ & _ & D & _); [fold r; lia|]. contradiction.
    - destruct parsed_copies as (h0 & cs & cn & HA & Hr & HR). eapply copied_list; eassumption.
  Qed.
  Lemma container_total e : is_container (hget r e) -> e < length r -> copied_plainly r e -> exists L, section_list r e L.
  Proof.
    intros [Hc|Hc] He Hp.
    - eexists. apply sl_own. assert (e = 0) as ->.
      { destruct e as [|e]; [reflexivity|]. destruct (doc_parent _ (doc_of_parse inp loc rk src c HP) (S e)) as (p & _ & _ & D & _); [fold r; lia|]. contradiction. }
      destruct parsed_copies as (h0 & cs & cn & HA & Hr & HR). destruct (n_template (hget r 0)) as [k|] eqn:Ek; [|reflexivity]. exfalso.
      destruct (res_fields h0 r HR 0) as (_ & _ & _ & _ & _ & _ & _ & T & _ & K).
      assert (0 < length h0) as L0 by (rewrite <- (res_len h0 r HR); lia).
      destruct (an_pr _ _ _ HA 0 L0) as (_ & _ & _ & _ & _ & _ & _ & _ & P & _). rewrite T in Ek.
      destruct P as [P|P]; [congruence| |]; rewrite <- K in P; unfold HeapFacts.ncls in P; rewrite Hc in P; discriminate.
    - destruct parsed_copies as (h0 & cs & cn & HA & Hr & HR). eapply section_list_total; eassumption.
  Qed.

  Lemma elements_copied s o e key : reach c s -> names s o CSection e -> copied_plainly r e ->
    exists L ys, section_list r e L /\ snd (section_elements o key s) = Ok ys /\
      Forall2 (fun y x => is_obj (fst (section_elements o key s)) y CSectionElement x (Some o)) ys (filter (keyed r key) L).
  Proof.
    intros Hs HN Hp. pose proof (iv_obj _ _ (inv_reach c (doc_of_parse inp loc rk src c HP) s Hs) o (proj1 HN)) as [He Hc _ _ _ _ _].
    pose proof HN as (_ & N1 & N2). rewrite N1, N2 in *. fold r in He, Hc. apply or_comm in Hc. destruct (container_total e Hc He Hp) as (L & HL). pose proof (container_list e L Hc He Hp HL) as HL'.
    destruct (query_elements HP s o e key L Hs HN HL') as (ys & E & F). exists L, ys. auto.
  Qed.

  Lemma one_section_list e L L' : section_list r e L -> section_list r e L' -> L = L'.
  Proof.
    pose proof (doc_of_parse inp loc rk src c HP) as HD. fold r in HD. intro H. revert L'.
    assert (forall e l, section_list r e l -> forall x, In x l -> n_key (hget r x) <> None) as Hk.
    { clear - HD. intros e l Hl. induction Hl as [e Ht|e t l l' Ht Hl IH Hw]; intros x Hx.
      - now apply (doc_elements r HD e x Hx).
      - apply in_app_or in Hx as [Hx|Hx]; [now apply (doc_elements r HD e x Hx)|]. apply IH. clear - Hw Hx.
        induction Hw as [|y l l' H Hw IH|y l l' H Hw IH]; [destruct Hx| |right; auto]. destruct Hx as [->|Hx]; [now left|right; auto]. }
    induction H as [e Ht|e t l l' Ht Hl IH Hw]; intros L' H'; inversion H' as [e' Ht'|e' t' k k' Ht' Hl' Hw']; subst.
    - reflexivity.
    - destruct Ht' as (? & (_ & _ & K) & _). congruence.
    - destruct Ht as (? & (_ & _ & K) & _). congruence.
    - assert (t' = t) as ->.
      { destruct Ht as (k1 & (_ & _ & K1) & C1 & U1), Ht' as (k2 & (_ & _ & K2) & C2 & U2). assert (k2 = k1) as -> by congruence. now apply U1. }
      assert (k = l) as -> by (symmetry; now apply IH). f_equal.
      apply (without_fun r (own_elements r e) l); [intros x Hx; now apply (doc_elements r HD e x Hx)|now apply Hk with t|assumption..].
  Qed.
End Parsed.

