(** TouchProofs: touching and asserting that everything was touched. *)
From Verif Require Import Base Types Messages Resolver Reporter Errors Context Elements SpecTree SpecRead SpecApi SpecQuery SpecTouch Reads ErrorCaches ApiDoc ApiInv ApiState ApiOps Session SessionInv QueryProofs PropCopiesProofs AnalyzerCopies.

Section Touch.
  Context (c0 : ctx) (HD : Doc (c_heap c0)).
  Let r := c_heap c0.
  Notation Inv := (Inv c0).
  Notation len s := (length (s_objs s)).

  Lemma ends_back s e : Inv s -> ends (c_heap (s_ctx s)) e -> ends r e.
  Proof.
    intro HI. pose proof (co_heap _ _ _ (iv_ctx _ _ HI)) as C. induction 1 as [e [A B]|e m A _ IH|e t [A B] _ IH].
    - apply en_plain. unfold plain, r. split; [rewrite <- (ca_mirror _ _ _ e C)|rewrite <- (ca_extend _ _ _ e C)]; assumption.
    - apply (en_mirror r e m); [|assumption]. unfold mirrors in *. unfold r. rewrite <- (ca_mirror _ _ _ e C). assumption.
    - apply (en_extend r e t); [|assumption]. unfold extends in *. unfold r. rewrite <- (ca_mirror _ _ _ e C), <- (ca_extend _ _ _ e C). auto.
  Qed.
  (** members that could be listed come from links that end *)
  Definition ending (children : nat -> sM (list nat)) (cl : class) : Prop := forall o s s' l, Inv s -> valid s o cl ->
    children o s = (s', Ok l) -> o_children (oget s o) = None -> ends r (o_instr (oget s o)).
  Lemma section_ending : ending section_children CSection.
  Proof.
    intros o s s' l HI [Ho Hc] E Hn. unfold section_children, mbind at 1, the_obj in E. rewrite Hn in E. unfold mbind at 1, oset in E. unfold mbind at 1, hfuel in E. unfold mbind at 1 in E.
    match type of E with context [instantiate_elements ?f ?o ?e ?s] => destruct (instantiate_elements f o e s) as [s2 [[]|x]] eqn:Ei end; [|discriminate].
    apply instantiate_ends in Ei. cbn in Ei. now apply (ends_back s).
  Qed.
  Lemma value_ending s o cl : Inv s -> valid s o cl -> cl = CFieldset \/ cl = CList -> ends r (o_instr (oget s o)).
  Proof.
    intros HI [Ho Hc] Hcl. apply (doc_ends r HD). pose proof (oo_class _ _ _ _ (iv_obj _ _ HI o Ho)) as Hfit. rewrite Hc in Hfit. fold r in Hfit.
    destruct Hcl as [-> | ->]; cbn in Hfit; intro Et; now rewrite Et in Hfit.
  Qed.
  Lemma fieldset_ending : ending fieldset_children CFieldset.
  Proof. intros o s s' l HI V _ _. apply (value_ending s o CFieldset); auto. Qed.
  Lemma list_ending : ending list_children CList.
  Proof. intros o s s' l HI V _ _. apply (value_ending s o CList); auto. Qed.

  (** ** States that differ in what was listed only *)
  Record grow (s s' : st) : Prop := {
    gr_ext : ext s s';
    gr_slot : forall o, o < len s -> forall k, yield_slot k (oget s' o) = yield_slot k (oget s o);
    gr_kids : forall o, o < len s -> o_children (oget s' o) = o_children (oget s o) \/
      (o_children (oget s o) = None /\ ends r (o_instr (oget s o)) /\ exists ids, o_children (oget s' o) = Some ids /\ forall y, In y ids -> len s <= y);
    gr_new : forall o, len s <= o < len s' -> forall k, yield_slot k (oget s' o) = None
  }.
  Record quiet (s s' : st) : Prop := {
    qu_grow : grow s s';
    qu_old : forall o, o < len s -> o_touched (oget s' o) = o_touched (oget s o);
    qu_new : forall o, len s <= o < len s' -> o_touched (oget s' o) = false
  }.
  Lemma grow_refl s : grow s s.
  Proof. split; auto; [apply ext_refl|lia]. Qed.
  Lemma quiet_refl s : quiet s s.
  Proof. split; auto; [apply grow_refl|lia]. Qed.
  Lemma grow_trans a b d : grow a b -> grow b d -> grow a d.
  Proof.
    intros [A1 A2 A3 A4] [B1 B2 B3 B4]. pose proof (ex_len _ _ A1) as L1. split.
    - eapply ext_trans; eassumption.
    - intros o Ho k. rewrite B2 by lia. auto.
    - intros o Ho. destruct (A3 o Ho) as [E|(E1 & E2 & ids & E3 & E4)].
      + destruct (B3 o) as [F|(F1 & F2 & ids & F3 & F4)]; [lia|left; congruence|]. right. split; [congruence|]. pose proof (xe_instr _ _ (ex_obj _ _ A1 o Ho)) as E5. rewrite E5 in F2.
        split; [assumption|]. exists ids. split; [assumption|]. intros y Hy. specialize (F4 y Hy). lia.
      + right. split; [assumption|]. split; [assumption|]. destruct (B3 o) as [F|(F1 & _)]; [lia| |congruence]. exists ids. split; [congruence|assumption].
    - intros o Ho k. destruct (Nat.lt_ge_cases o (len b)) as [H|H]; [rewrite B2 by assumption; apply A4; lia|apply B4; lia].
  Qed.
  Lemma quiet_trans a b d : quiet a b -> quiet b d -> quiet a d.
  Proof.
    intros [A1 A2 A3] [B1 B2 B3]. pose proof (ex_len _ _ (gr_ext _ _ A1)) as L1. split.
    - eapply grow_trans; eassumption.
    - intros o Ho. rewrite B2 by lia. auto.
    - intros o Ho. destruct (Nat.lt_ge_cases o (len b)) as [H|H]; [rewrite B2 by assumption; apply A3; lia|apply B3; lia].
  Qed.
  Lemma kids_quiet children cl o s s' l : children_spec c0 children cl -> ending children cl -> Inv s -> valid s o cl -> (cl = CSection \/ cl = CFieldset \/ cl = CList) ->
    children o s = (s', Ok l) -> Inv s' /\ quiet s s' /\ o_children (oget s' o) = Some l.
  Proof.
    intros HS HE HI HV Hcl E. destruct (HS o s HI HV) as (s2 & v & ids & E2 & H1 & H2 & H3 & H4). rewrite E in E2. injection E2 as <- <-. destruct H4 as [[= <-]|[H4 _]]; [|discriminate H4].
    pose proof (made_kids _ _ _ _ _ H3) as HK. split; [assumption|]. split; [|assumption]. destruct H3 as [M1 M2 (m & M3) M4 M5].
    split.
    - split; [assumption| | |].
      + intros i Hi k. destruct (Nat.eq_dec i o) as [->|Hne]; [rewrite M3; now destruct k|now rewrite M4].
      + intros i Hi. destruct (Nat.eq_dec i o) as [->|Hne]; [|left; now rewrite M4]. destruct (o_children (oget s o)) as [l0|] eqn:Eo.
        * left. destruct (xe_kids _ _ (ex_obj _ _ H2 o Hi) l0 Eo) as [K _]. congruence.
        * right. split; [reflexivity|]. split; [eapply HE; eassumption|]. exists l. split; [assumption|]. intros y Hy. destruct (Nat.le_gt_cases (len s) y) as [Hle|Hlt]; [assumption|]. exfalso.
          destruct (kid_valid c0 s' o l y H1) as (V & P & _); [lia|assumption..|]. destruct V as [_ V]. destruct HV as [HV1 HV2].
          assert (y <> o) as Hyo. { intros ->. pose proof (oo_parent _ _ _ _ (iv_obj _ _ H1 o (Nat.lt_le_trans _ _ _ Hi M2))) as Q. rewrite P in Q. lia. }
          rewrite M4 in V, P by assumption. rewrite M3 in V. cbn [with_children o_class] in V. rewrite HV2 in V.
          pose proof (oo_home _ _ _ _ (iv_obj _ _ HI y Hlt) o P) as Q. rewrite V in Q. destruct Hcl as [-> |[-> | ->]]; cbn in Q; destruct Q as (l0 & Q & _); congruence.
      + intros i Hi k. destruct (M5 i Hi) as (e & ->). now destruct k.
    - intros i Hi. destruct (Nat.eq_dec i o) as [->|Hne]; [now rewrite M3|now rewrite M4].
    - intros i Hi. destruct (M5 i Hi) as (e & ->). reflexivity.
  Qed.

  (** ** Facts about listed members *)
  Definition kind_cl (k : kind) : class := kind_class k.
  Lemma listed_fun k e L L' : listed r k e L -> listed r k e L' -> L = L'.
  Proof.
    destruct k; cbn; try congruence; intros H G; [exact (entry_list_fun r HD e L H L' G)|exact (item_list_fun r e L H L' G)|exact (element_list_fun r HD e L H L' G)].
  Qed.
  Lemma kids_listed s k y l : Inv s -> valid s y (kind_class k) -> k <> KEmpty -> k <> KField -> o_children (oget s y) = Some l -> ends r (o_instr (oget s y)) ->
    listed r k (o_instr (oget s y)) (map (fun z => o_instr (oget s z)) l).
  Proof.
    intros HI [Hy Hc] N1 N2 Hl He. pose proof (ki_list _ _ _ _ _ (oo_kids _ _ _ _ (iv_obj _ _ HI y Hy) l Hl) He) as G. rewrite Hc in G. destruct k; try contradiction; exact G.
  Qed.
  Lemma seen_read s e : seen r s e -> exists k y, read_as s e k y.
  Proof. destruct 1; eauto. Qed.
  Lemma slot_lt s e k y : Inv s -> e < len s -> read_as s e k y -> e < y < len s /\ valid s y (kind_class k).
  Proof.
    intros HI He Hy. destruct (oo_slot _ _ _ _ (iv_obj _ _ HI e He) k y Hy) as (_ & A & B & _). split; [assumption|]. split; [lia|assumption].
  Qed.
  Lemma kid_lt s y l z : Inv s -> y < len s -> o_children (oget s y) = Some l -> In z l -> y < z < len s.
  Proof. intros HI Hy Hl Hz. destruct (kid_valid c0 s y l z HI Hy Hl Hz) as ((A & _) & _ & B). lia. Qed.
  Lemma instr_stays s s' y : ext s s' -> y < len s -> o_instr (oget s' y) = o_instr (oget s y).
  Proof. intros X Hy. apply (xe_instr _ _ (ex_obj _ _ X y Hy)). Qed.

  (** the members of [y] in a later state *)
  Lemma opened_fwd s s' k y l : Inv s' -> grow s s' -> k <> KEmpty -> k <> KField -> valid s y (kind_class k) -> opened_to r s k y l -> opened_to r s' k y l.
  Proof.
    intros HI [X G1 G2 G3] N1 N2 V H. pose proof (valid_ext _ _ _ _ X V) as V'. destruct V as [Hy _]. unfold opened_to. rewrite (instr_stays s s' y X Hy).
    destruct (G2 y Hy) as [->|(E1 & E2 & ids & E3 & E4)]; [exact H|]. destruct H as [H|(_ & -> & H)]; [congruence|]. left. rewrite E3. f_equal.
    pose proof (kids_listed s' k y ids HI V' N1 N2 E3) as K. rewrite (instr_stays s s' y X Hy) in K. specialize (K E2). pose proof (listed_fun _ _ _ _ H K) as E. now destruct ids.
  Qed.
  (** ... or they are new *)
  Lemma opened_back s s' k y l : Inv s' -> grow s s' -> k <> KEmpty -> k <> KField -> valid s y (kind_class k) -> opened_to r s' k y l ->
    opened_to r s k y l \/ l <> [] /\ forall z, In z l -> len s <= z < len s'.
  Proof.
    intros HI [X G1 G2 G3] N1 N2 V H. pose proof (valid_ext _ _ _ _ X V) as V'. destruct V as [Hy _]. unfold opened_to in *. rewrite (instr_stays s s' y X Hy) in H.
    destruct (G2 y Hy) as [E|(E1 & E2 & ids & E3 & E4)]; [rewrite E in H; now left|]. destruct H as [H|(H & _)]; [|congruence]. assert (l = ids) as -> by congruence.
    destruct ids as [|z ids].
    - left. right. split; [assumption|]. split; [reflexivity|]. pose proof (kids_listed s' k y [] HI V' N1 N2 E3) as K. rewrite (instr_stays s s' y X Hy) in K. exact (K E2).
    - right. split; [discriminate|]. intros w Hw. split; [now apply E4|]. apply (kid_lt s' y (z :: ids)); try assumption. apply V'.
  Qed.

  Lemma seen_fwd s s' e : Inv s -> Inv s' -> grow s s' -> e < len s -> seen r s e -> seen r s' e.
  Proof.
    intros HI HI' G He H. pose proof (gr_ext _ _ G) as X. assert (T : forall y, y < len s -> touched s y -> touched s' y) by (intros y Hy; apply (xe_touched _ _ (ex_obj _ _ X y Hy))).
    assert (S : forall e k y, e < len s -> read_as s e k y -> read_as s' e k y) by (intros a k y Ha; unfold read_as; now rewrite (gr_slot _ _ G a Ha)).
    induction H as [e k y Hk Hy Ht|e k y l Hk Hy Ht Hl Hz|e y l Hy Ht Hl Hz IH]; destruct (slot_lt s e _ y HI He Hy) as [Hlt V].
    - apply (se_value r s' e k y Hk); [now apply S|apply T; [lia|assumption]].
    - apply (se_members r s' e k y l Hk); [now apply S|apply T; [lia|assumption]| |].
      + apply (opened_fwd s); try assumption; destruct Hk; subst; discriminate.
      + intros z Hin. apply T; [|now apply Hz]. destruct Hl as [Hl|(_ & -> & _)]; [|destruct Hin]. apply (kid_lt s y l z HI); [lia|assumption..].
    - apply (se_section r s' e y l); [now apply S|apply T; [lia|assumption]| |].
      + apply (opened_fwd s); try assumption; discriminate.
      + intros z Hin. apply IH; [assumption|]. destruct Hl as [Hl|(_ & -> & _)]; [|destruct Hin]. apply (kid_lt s y l z HI); [lia|assumption..].
  Qed.
  Lemma new_unread s s' e k y : grow s s' -> len s <= e < len s' -> ~ read_as s' e k y.
  Proof. intros G He H. unfold read_as in H. rewrite (gr_new _ _ G e He) in H. discriminate. Qed.
  Lemma seen_back s s' e : Inv s -> Inv s' -> quiet s s' -> e < len s -> seen r s' e -> seen r s e.
  Proof.
    intros HI HI' [G Q1 Q2] He H. assert (T : forall y, y < len s -> touched s' y -> touched s y) by (intros y Hy; unfold touched; now rewrite Q1).
    assert (S : forall e k y, e < len s -> read_as s' e k y -> read_as s e k y) by (intros a k y Ha; unfold read_as; now rewrite (gr_slot _ _ G a Ha)).
    induction H as [e k y Hk Hy Ht|e k y l Hk Hy Ht Hl Hz|e y l Hy Ht Hl Hz IH]; apply S in Hy; try assumption; destruct (slot_lt s e _ y HI He Hy) as [Hlt V].
    - eapply se_value; [exact Hk|exact Hy|apply T; [lia|assumption]].
    - apply (opened_back s) in Hl; try assumption; try (destruct Hk; subst; discriminate). destruct Hl as [Hl|[Hl1 Hl2]].
      + apply (se_members r s e k y l Hk); [assumption|apply T; [lia|assumption]|assumption|]. intros z Hin. apply T; [|now apply Hz].
        destruct Hl as [Hl|(_ & -> & _)]; [|destruct Hin]. apply (kid_lt s y l z HI); [lia|assumption..].
      + exfalso. destruct l as [|z l]; [contradiction|]. specialize (Hz z (or_introl eq_refl)). unfold touched in Hz. rewrite Q2 in Hz; [discriminate|]. apply Hl2. now left.
    - apply (opened_back s) in Hl; try assumption; try discriminate. destruct Hl as [Hl|[Hl1 Hl2]].
      + apply (se_section r s e y l); [assumption|apply T; [lia|assumption]|assumption|]. intros z Hin. apply IH; [assumption|].
        destruct Hl as [Hl|(_ & -> & _)]; [|destruct Hin]. apply (kid_lt s y l z HI); [lia|assumption..].
      + exfalso. destruct l as [|z l]; [contradiction|]. destruct (seen_read s' z (Hz z (or_introl eq_refl))) as (k & w & Hw). apply (new_unread s s' z k w G); [|assumption]. apply Hl2. now left.
  Qed.
  Lemma unseen_back s s' e i : Inv s -> Inv s' -> quiet s s' -> e < len s -> unseen r s' e i -> unseen r s e i.
  Proof.
    intros HI HI' [G Q1 Q2] He H. pose proof (gr_ext _ _ G) as X. assert (T : forall y, y < len s -> touched s' y <-> touched s y) by (intros y Hy; unfold touched; now rewrite Q1).
    assert (S : forall e k y, e < len s -> read_as s' e k y <-> read_as s e k y) by (intros a k y Ha; unfold read_as; now rewrite (gr_slot _ _ G a Ha)).
    induction H as [e Hn|e k y Hy Ht|e k y l z Hk Hy Ht Hl Hz Htz|e y l z i Hy Ht Hl Hz Hi IH|e k y L i Hy Ht Hl HL Hi].
    - rewrite (instr_stays s s' e X He). apply un_unread. intros k y. rewrite <- S by assumption. apply Hn.
    - apply S in Hy; [|assumption]. destruct (slot_lt s e _ y HI He Hy) as [Hlt V]. rewrite (instr_stays s s' y X) by lia. eapply un_unused; [exact Hy|]. rewrite <- T by lia. assumption.
    - apply S in Hy; [|assumption]. destruct (slot_lt s e _ y HI He Hy) as [Hlt V]. apply T in Ht; [|lia]. destruct (gr_kids _ _ G y) as [E|(E1 & E2 & ids & E3 & E4)]; [lia| |].
      + rewrite E in Hl. destruct (kid_lt s y l z HI) as [_ Hzl]; [lia|assumption..|]. rewrite (instr_stays s s' z X Hzl). apply (un_member r s e k y l z); try assumption. now rewrite <- T.
      + assert (l = ids) as -> by congruence. assert (ends r (o_instr (oget s' y))) as E5 by (rewrite (instr_stays s s' y X) by lia; assumption).
        pose proof (kids_listed s' k y ids HI' (valid_ext _ _ _ _ X V)) as K. rewrite (instr_stays s s' y X) in K, E5 by lia.
        eapply un_unopened; [exact Hy|exact Ht|exact E1|apply K; try assumption; destruct Hk; subst; discriminate|]. now apply (in_map (fun z => o_instr (oget s' z))).
    - apply S in Hy; [|assumption]. destruct (slot_lt s e _ y HI He Hy) as [Hlt V]. apply T in Ht; [|lia]. destruct (gr_kids _ _ G y) as [E|(E1 & E2 & ids & E3 & E4)]; [lia| |].
      + rewrite E in Hl. destruct (kid_lt s y l z HI) as [_ Hzl]; [lia|assumption..|]. apply (un_below r s e y l z i); try assumption. now apply IH.
      + assert (l = ids) as -> by congruence. assert (ends r (o_instr (oget s' y))) as E5 by (rewrite (instr_stays s s' y X) by lia; assumption).
        pose proof (kids_listed s' KSection y ids HI' (valid_ext _ _ _ _ X V)) as K. rewrite (instr_stays s s' y X) in K, E5 by lia.
        assert (i = o_instr (oget s' z)) as ->.
        { assert (len s <= z < len s') as Hzn. { split; [now apply E4|]. pose proof (ex_len _ _ X). apply (kid_lt s' y ids z HI'); [lia|assumption..]. }
          clear - Hi G Hzn. destruct Hi as [e Hn|e k y Hy Ht|e k y l z Hk Hy Ht Hl Hz Htz|e y l z i Hy Ht Hl Hz Hi|e k y L i Hy Ht Hl HL Hi]; [reflexivity|exfalso; exact (new_unread s s' e _ y G Hzn Hy)..]. }
        eapply un_unopened; [exact Hy|exact Ht|exact E1|apply K; try assumption; discriminate|]. now apply (in_map (fun z => o_instr (oget s' z))).
    - apply S in Hy; [|assumption]. destruct (slot_lt s e _ y HI He Hy) as [Hlt V]. apply T in Ht; [|lia]. rewrite (instr_stays s s' y X) in HL by lia.
      destruct (gr_kids _ _ G y) as [E|(E1 & E2 & ids & E3 & E4)]; [lia| |congruence]. rewrite E in Hl. eapply un_unopened; eassumption.
  Qed.
  Lemma read_one s e j k w y : Inv s -> e < len s -> read_as s e j w -> read_as s e k y -> j = k /\ w = y.
  Proof.
    intros HI He Hw Hy. pose proof (slot_unique c0 s e _ _ w y HI He Hw Hy) as ->. split; [reflexivity|]. unfold read_as in *. congruence.
  Qed.
  Lemma seen_unseen s e i : Inv s -> e < len s -> seen r s e -> unseen r s e i -> False.
  Proof.
    intros HI He H. revert He i. induction H as [e k y Hk Hy Ht|e k y l Hk Hy Ht Hl Hz|e y l Hy Ht Hl Hz IH]; intros He i U.
    all: inversion U as [e0 Hn|e0 k' w Hw Hu|e0 k' w l' z Hk' Hw Hu Hl' Hz' Hu'|e0 w l' z i' Hw Hu Hl' Hz' Hu'|e0 k' w L i' Hw Hu Hl' HL Hi]; subst; try (exact (Hn _ _ Hy)); destruct (read_one s e _ _ _ _ HI He Hw Hy) as [E1 E2]; subst.
    all: try contradiction; try (destruct Hk as [Hk|Hk]; subst; destruct Hk' as [Hk'|Hk']; discriminate); try (destruct Hk; discriminate); try (destruct Hk'; discriminate).
    - destruct Hk; subst; cbn in HL; subst L; destruct Hi.
    - destruct Hl as [Hl|(Hl & _)]; [|congruence]. assert (l' = l) as -> by congruence. apply Hu'. now apply Hz.
    - destruct Hl as [Hl|(_ & _ & Hl)]; [congruence|]. rewrite (listed_fun _ _ _ _ HL Hl) in Hi. destruct Hi.
    - destruct Hl as [Hl|(Hl & _)]; [|congruence]. assert (l' = l) as -> by congruence. destruct (slot_lt s e _ y HI He Hy) as [Hlt _]. apply (IH z Hz') with (i := i); [|assumption].
      apply (kid_lt s y l z HI); [lia|assumption..].
    - destruct Hl as [Hl|(_ & _ & Hl)]; [congruence|]. rewrite (listed_fun _ _ _ _ HL Hl) in Hi. destruct Hi.
  Qed.

  (** ** Looking for something untouched *)
  Definition low (N : nat) (s : st) : Prop := N <= len s /\ forall o k y, o < len s -> read_as s o k y -> y < N.
  Lemma low_grow N s s' : grow s s' -> low N s -> low N s'.
  Proof.
    intros G [L H]. pose proof (ex_len _ _ (gr_ext _ _ G)). split; [lia|]. intros o k y Ho Hy. destruct (Nat.lt_ge_cases o (len s)) as [Hlt|Hge].
    - apply (H o k y Hlt). unfold read_as in *. now rewrite <- (gr_slot _ _ G o Hlt).
    - exfalso. apply (new_unread s s' o k y G); [lia|assumption].
  Qed.
  Lemma read_fwd s s' e k y : grow s s' -> e < len s -> read_as s e k y -> read_as s' e k y.
  Proof. intros G He. unfold read_as. now rewrite (gr_slot _ _ G e He). Qed.
  Lemma touched_fwd s s' y : ext s s' -> y < len s -> touched s y -> touched s' y.
  Proof. intros X Hy. apply (xe_touched _ _ (ex_obj _ _ X y Hy)). Qed.

  Definition verdict (s : st) (e : nat) (v : res (option nat)) : Prop := v = Ok None /\ seen r s e \/ (exists i, v = Ok (Some i) /\ unseen r s e i).
  Definition looked (s : st) (e : nat) (x : st * res (option nat)) : Prop := exists s' v, x = (s', v) /\ Inv s' /\
    ((quiet s s' /\ verdict s e v) \/ (v = Raise Fuel /\ ~ seen r s e /\ exists j, ~ ends r j)).
  Lemma find_spec {A} (f : A -> bool) l : match find f l with Some x => In x l /\ f x = true | None => forall x, In x l -> f x = false end.
  Proof. destruct (find f l) eqn:E; [now apply find_some in E|]. intros x Hx. now apply (find_none _ _ E). Qed.

  Lemma leaf_is children k e y s : children_spec c0 children (kind_class k) -> ending children (kind_class k) -> k = KFieldset \/ k = KList ->
    Inv s -> e < len s -> read_as s e k y -> looked s e (untouched_leaf children y s).
  Proof.
    intros HS HE Hk HI He Hy. destruct (slot_lt s e k y HI He Hy) as [Hlt V]. unfold untouched_leaf, mbind at 1, the_obj.
    assert (NE : k <> KEmpty) by (destruct Hk; subst; discriminate). assert (NF : k <> KField) by (destruct Hk; subst; discriminate).
    destruct (o_touched (oget s y)) eqn:Et.
    - destruct (HS y s HI V) as (s1 & v & ids & E & H1 & H2 & H3 & H4). destruct H4 as [->|(_ & H4 & _)].
      2:{ exfalso. apply H4. apply (value_ending s y (kind_class k)); try assumption. destruct Hk; subst; auto. }
      destruct (kids_quiet children (kind_class k) y s s1 ids HS HE HI V) as (I1 & Q1 & K1); [destruct Hk; subst; auto|assumption|].
      unfold mbind at 1. rewrite E. unfold mbind, get, ret. pose proof (qu_grow _ _ Q1) as G1. pose proof (gr_ext _ _ G1) as X1.
      pose proof (read_fwd s s1 e k y G1 He Hy) as R1. pose proof (touched_fwd s s1 y X1 (proj1 V) Et) as T1.
      pose proof (find_spec (fun i => negb (o_touched (oget s1 i))) ids) as F. destruct (find _ ids) as [z|].
      + exists s1, (Ok (Some (o_instr (oget s1 z)))). split; [reflexivity|]. split; [assumption|]. left. split; [assumption|]. right. exists (o_instr (oget s1 z)). split; [reflexivity|].
        apply (unseen_back s s1); try assumption. destruct F as [F1 F2]. apply (un_member r s1 e k y ids z); try assumption. unfold touched. destruct (o_touched (oget s1 z)); discriminate.
      + exists s1, (Ok None). split; [reflexivity|]. split; [assumption|]. left. split; [assumption|]. left. split; [reflexivity|].
        apply (seen_back s s1); try assumption. apply (se_members r s1 e k y ids); try assumption; [now left|]. intros z Hz. specialize (F z Hz). unfold touched. now destruct (o_touched (oget s1 z)).
    - exists s, (Ok (Some (o_instr (oget s y)))). split; [reflexivity|]. split; [assumption|]. left. split; [apply quiet_refl|]. right. exists (o_instr (oget s y)). split; [reflexivity|].
      eapply un_unused; [exact Hy|]. unfold touched. congruence.
  Qed.

  Definition looked_all (s : st) (l : list nat) (x : st * res (option nat)) : Prop := exists s' v, x = (s', v) /\ Inv s' /\
    ((quiet s s' /\ (v = Ok None /\ (forall e, In e l -> seen r s e) \/ exists e i, v = Ok (Some i) /\ In e l /\ unseen r s e i)) \/
     (v = Raise Fuel /\ (exists e, In e l /\ ~ seen r s e) /\ exists j, ~ ends r j)).
  Lemma first_is (f : nat -> sM (option nat)) N l : forall s, Inv s -> low N s -> (forall e, In e l -> e < len s) ->
    (forall e s1, In e l -> Inv s1 -> low N s1 -> e < len s1 -> looked s1 e (f e s1)) -> looked_all s l (first_some f l s).
  Proof.
    induction l as [|e l IH]; intros s HI HL Hlt Hf; cbn [first_some].
    - exists s, (Ok None). split; [reflexivity|]. split; [assumption|]. left. split; [apply quiet_refl|]. left. split; [reflexivity|intros e []].
    - unfold mbind. assert (e < len s) as He by (apply Hlt; now left). destruct (Hf e s) as (s1 & v & E & I1 & H); [now left|assumption..|]. rewrite E.
      destruct H as [[Q1 [[-> H]|(i & -> & H)]]|(-> & H1 & H2)].
      + pose proof (qu_grow _ _ Q1) as G1. pose proof (gr_ext _ _ G1) as X1. pose proof (ex_len _ _ X1) as L1.
        destruct (IH s1) as (s2 & v & E2 & I2 & H2); [assumption|now apply (low_grow N s)| | |].
        { intros a Ha. specialize (Hlt a (or_intror Ha)). lia. } { intros a s3 Ha. apply Hf. now right. }
        rewrite E2. exists s2, v. split; [reflexivity|]. split; [assumption|].
        assert (SB : forall a, In a l -> seen r s1 a -> seen r s a) by (intros a Ha; apply (seen_back s s1); try assumption; apply Hlt; now right).
        destruct H2 as [[Q2 [[-> H2]|(a & i & -> & Ha & H2)]]|(-> & (a & Ha & H2) & H3)].
        * left. split; [eapply quiet_trans; eassumption|]. left. split; [reflexivity|]. intros a [<-|Ha]; [assumption|]. apply SB; auto.
        * left. split; [eapply quiet_trans; eassumption|]. right. exists a, i. split; [reflexivity|]. split; [now right|]. apply (unseen_back s s1); try assumption. apply Hlt. now right.
        * right. split; [reflexivity|]. split; [|assumption]. exists a. split; [now right|]. intro Hs. apply H2. apply (seen_fwd s s1); try assumption. apply Hlt. now right.
      + exists s1, (Ok (Some i)). split; [reflexivity|]. split; [assumption|]. left. split; [assumption|]. right. exists e, i. split; [reflexivity|]. split; [now left|assumption].
      + exists s1, (Raise Fuel). split; [reflexivity|]. split; [assumption|]. right. split; [reflexivity|]. split; [|assumption]. exists e. split; [now left|assumption].
  Qed.

  Lemma slots_none s e : Inv s -> e < len s -> o_yielded (oget s e) = None -> forall k y, ~ read_as s e k y.
  Proof. intros HI He Hn k y H. unfold read_as in H. rewrite (no_slots c0 s e HI He Hn k) in H. discriminate. Qed.
  Lemma yield_of s e t : Inv s -> e < len s -> o_yielded (oget s e) = Some t -> exists k y, read_as s e k y.
  Proof. intros HI He Ht. exact (oo_yield _ _ _ _ (iv_obj _ _ HI e He) t Ht). Qed.
  Lemma slot_cases s e k y : Inv s -> e < len s -> read_as s e k y ->
    o_empty (oget s e) = (match k with KEmpty => Some y | _ => None end) /\ o_field (oget s e) = (match k with KField => Some y | _ => None end) /\
    o_fieldset (oget s e) = (match k with KFieldset => Some y | _ => None end) /\ o_list (oget s e) = (match k with KList => Some y | _ => None end) /\
    o_section (oget s e) = (match k with KSection => Some y | _ => None end).
  Proof.
    intros HI He Hy. assert (U : forall j, yield_slot j (oget s e) = if class_eqb (kind_class j) (kind_class k) then Some y else None).
    { intro j. destruct (yield_slot j (oget s e)) as [w|] eqn:Ew.
      - destruct (read_one s e j k w y HI He Ew Hy) as [-> ->]. now destruct k.
      - destruct (class_eqb (kind_class j) (kind_class k)) eqn:Ec; [|reflexivity]. apply class_eqb_eq in Ec. apply kind_class_inj in Ec. subst j. unfold read_as in Hy. congruence. }
    pose proof (U KEmpty) as U1. pose proof (U KField) as U2. pose proof (U KFieldset) as U3. pose proof (U KList) as U4. pose proof (U KSection) as U5. cbn [yield_slot] in *.
    rewrite U1, U2, U3, U4, U5. destruct k; repeat split; reflexivity.
  Qed.

  Lemma untouched_is N fuel : forall e s, Inv s -> low N s -> e < len s -> N - e < fuel -> looked s e (untouched_element fuel e s).
  Proof.
    induction fuel as [|f IH]; intros e s HI HL He Hf; [lia|]. cbn [untouched_element]. unfold mbind at 1, the_obj. unfold mbind at 1, get.
    destruct (o_yielded (oget s e)) as [t|] eqn:Ey.
    2:{ exists s, (Ok (Some (o_instr (oget s e)))). split; [reflexivity|]. split; [assumption|]. left. split; [apply quiet_refl|]. right. eexists. split; [reflexivity|].
        apply un_unread. now apply slots_none. }
    destruct (yield_of s e t HI He Ey) as (k & y & Hy). destruct (slot_cases s e k y HI He Hy) as (E1 & E2 & E3 & E4 & E5). rewrite E1, E2, E3, E4, E5.
    destruct (slot_lt s e k y HI He Hy) as [Hlt V]. pose proof (proj2 (proj2 (proj2 (oo_slot _ _ _ _ (iv_obj _ _ HI e He) k y Hy)))) as (Hi & _).
    assert (V1 : forall B (x : sM (option nat)), (k = KEmpty \/ k = KField) -> B = negb (o_touched (oget s y)) -> (B = false -> x s = (s, Ok None)) ->
      looked s e ((if B then ret (Some (o_instr (oget s e))) else x) s)).
    { intros B x Hk -> Hx. destruct (o_touched (oget s y)) eqn:Et; cbn [negb] in *.
      - rewrite Hx by reflexivity. exists s, (Ok None). split; [reflexivity|]. split; [assumption|]. left. split; [apply quiet_refl|]. left. split; [reflexivity|]. eapply se_value; eassumption.
      - exists s, (Ok (Some (o_instr (oget s e)))). split; [reflexivity|]. split; [assumption|]. left. split; [apply quiet_refl|]. right. eexists. split; [reflexivity|]. rewrite <- Hi.
        eapply un_unused; [exact Hy|]. unfold touched. congruence. }
    destruct k.
    - apply V1; [now left|reflexivity|reflexivity].
    - apply V1; [now right|reflexivity|reflexivity].
    - apply (leaf_is fieldset_children KFieldset); try assumption; [now apply fieldset_spec|apply fieldset_ending|now left].
    - apply (leaf_is list_children KList); try assumption; [now apply list_spec|apply list_ending|now right].
    - unfold mbind at 1, the_obj. destruct (o_touched (oget s y)) eqn:Et.
      2:{ exists s, (Ok (Some (o_instr (oget s y)))). split; [reflexivity|]. split; [assumption|]. left. split; [apply quiet_refl|]. right. eexists. split; [reflexivity|].
          eapply un_unused; [exact Hy|]. unfold touched. congruence. }
      destruct (section_spec c0 HD y s HI V) as (s1 & v & ids & E & H1 & H2 & H3 & H4). unfold mbind. rewrite E. destruct H4 as [->|(-> & H4 & H5)].
      2:{ exists s1, (Raise Fuel). split; [reflexivity|]. split; [assumption|]. right. split; [reflexivity|]. split; [|exists (o_instr (oget s y)); exact H4].
          intro Hs. inversion Hs as [? k' w Hk Hw Ht|? k' w l Hk Hw Ht Hl Hz|? w l Hw Ht Hl Hz]; subst; destruct (read_one s e _ _ _ _ HI He Hw Hy) as [K1 K2]; subst; try (destruct Hk; discriminate).
          destruct Hl as [Hl|(_ & _ & Hl)]; [congruence|]. apply H4. now apply (element_list_ends r _ []). }
      destruct (kids_quiet section_children CSection y s s1 ids (section_spec c0 HD) section_ending HI V) as (I1 & Q1 & K1); [now left|assumption|].
      pose proof (qu_grow _ _ Q1) as G1. pose proof (gr_ext _ _ G1) as X1. pose proof (read_fwd s s1 e _ y G1 He Hy) as R1. pose proof (touched_fwd s s1 y X1 (proj1 V) Et) as T1.
      pose proof (ex_len _ _ X1) as L1. pose proof (low_grow N s s1 G1 HL) as HL1. assert (y < N) as HyN by (apply (proj2 HL e KSection); assumption).
      assert (KL : forall z, In z ids -> y < z < len s1) by (intros z Hz; apply (kid_lt s1 y ids z I1); [lia|assumption..]).
      destruct (first_is (untouched_element f) N ids s1) as (s2 & v & E' & I2 & H); [assumption|assumption|intros z Hz; now apply KL| |].
      { intros z s3 Hz I3 L3 Hlt3. apply IH; try assumption. specialize (KL z Hz). lia. }
      rewrite E'. exists s2, v. split; [reflexivity|]. split; [assumption|]. destruct H as [[Q2 [[-> H]|(z & i & -> & Hz & H)]]|(-> & (z & Hz & H) & Hj)].
      + left. split; [eapply quiet_trans; eassumption|]. left. split; [reflexivity|]. apply (seen_back s s1); try assumption. apply (se_section r s1 e y ids); try assumption. now left.
      + left. split; [eapply quiet_trans; eassumption|]. right. exists i. split; [reflexivity|]. apply (unseen_back s s1); try assumption. now apply (un_below r s1 e y ids z i).
      + right. split; [reflexivity|]. split; [|assumption]. intro Hs. apply H. apply (seen_fwd s s1) in Hs; try assumption.
        inversion Hs as [? k' w Hk Hw Ht|? k' w l Hk Hw Ht Hl Hz'|? w l Hw Ht Hl Hz']; subst; destruct (read_one s1 e _ _ _ _ I1 (Nat.lt_le_trans _ _ _ He L1) Hw R1) as [J1 J2]; subst; try (destruct Hk; discriminate).
        destruct Hl as [Hl|(Hl & _)]; [|congruence]. assert (l = ids) as -> by congruence. now apply Hz'.
  Qed.

  (** ** assert_all_touched() *)
  Lemma mem_text_in k l : mem_text k l = true <-> In k l.
  Proof.
    unfold mem_text. rewrite existsb_exists. split; [intros (x & Hx & E); apply text_eqb_eq in E; now subst|intro H; exists k; split; [assumption|apply text_eqb_refl]].
  Qed.
  Lemma skipped_is only skip k : skipped only skip k = true <-> left_out only skip (Some k).
  Proof.
    unfold skipped, left_out. rewrite orb_true_iff. split.
    - intro H. exists k. split; [reflexivity|]. destruct H as [H|H].
      + left. destruct skip as [[|x l]|]; try discriminate. exists (x :: l). split; [reflexivity|]. now apply mem_text_in.
      + right. destruct only as [[|x l]|]; try discriminate. exists x, l. split; [reflexivity|]. rewrite <- mem_text_in. now destruct (mem_text k (x :: l)).
    - intros (x & [= <-] & [(l & -> & H)|(y & l & -> & H)]).
      + left. destruct l as [|x l]; [destruct H|]. now apply mem_text_in.
      + right. rewrite <- mem_text_in in H. now destruct (mem_text k (y :: l)).
  Qed.
  Lemma els_in s o cl ids only skip e : Inv s -> valid s o cl -> cl = CSection \/ cl = CFieldset -> o_children (oget s o) = Some ids ->
    In e (flat_map snd (filter (fun p => negb (skipped only skip (fst p))) (o_map (oget s o)))) <->
    In e ids /\ ~ left_out only skip (n_key (hget r (o_instr (oget s e)))).
  Proof.
    intros HI [Ho Hc] Hcl Hl. assert (Hc' : o_class (oget s o) = CSection \/ o_class (oget s o) = CFieldset) by (rewrite Hc; assumption). destruct (ki_map _ _ _ _ _ (oo_kids _ _ _ _ (iv_obj _ _ HI o Ho) ids Hl)) as [N G]; [destruct Hc' as [Hc'|Hc']; rewrite Hc'; discriminate|].
    assert (U : forall k z, In z (under (c_heap c0) k (pairs s ids)) <-> In z ids /\ n_key (hget r (o_instr (oget s z))) = Some k).
    { intros k z. assert (K : In z ids -> exists k', n_key (hget r (o_instr (oget s z))) = Some k').
      { intro Hz. pose proof (kid_key c0 HD s o ids z HI Ho Hc' Hl Hz) as K. fold r in K. destruct (n_key (hget r (o_instr (oget s z)))); [eauto|contradiction]. }
      unfold under, pairs. rewrite in_map_iff. split.
      - intros ([a b] & <- & H). apply filter_In in H as [H E]. apply in_map_iff in H as (w & [= <- <-] & H). cbn in *. split; [assumption|]. destruct (K H) as (k' & K'). apply text_eqb_eq in E.
        unfold ApiInv.key, key_of in E. fold r in E. rewrite K' in *. now subst.
      - intros [H E]. exists (o_instr (oget s z), z). split; [reflexivity|]. apply filter_In. split; [apply in_map_iff; now exists z|]. cbn. unfold ApiInv.key, key_of. fold r. rewrite E. apply text_eqb_refl. }
    assert (A : forall k ys, In (k, ys) (o_map (oget s o)) -> forall z, In z ys <-> In z ids /\ n_key (hget r (o_instr (oget s z))) = Some k).
    { intros k ys H z. apply (in_assoc _ _ _ N) in H. rewrite G in H. rewrite <- U. destruct (under (c_heap c0) k (pairs s ids)); [discriminate|]. now injection H as <-. }
    rewrite in_flat_map. split.
    - intros ([k ys] & H & He). apply filter_In in H as [H E]. cbn in *. apply (A k ys H) in He as [He K]. split; [assumption|]. rewrite K, <- skipped_is. now destruct (skipped only skip k).
    - intros [He Hn]. pose proof (kid_key c0 HD s o ids e HI Ho Hc' Hl He) as K. fold r in K. destruct (n_key (hget r (o_instr (oget s e)))) as [k|] eqn:Ek; [|contradiction].
      assert (In e (under (c_heap c0) k (pairs s ids))) as Hu by (apply U; auto). specialize (G k). destruct (under (c_heap c0) k (pairs s ids)) as [|y ys] eqn:Eu; [destruct Hu|].
      exists (k, y :: ys). split; [|exact Hu]. apply filter_In. split; [now apply assoc_in|]. cbn. rewrite <- skipped_is in Hn. now destruct (skipped only skip k).
  Qed.
  Lemma blind_unexpected m e : blind (fun c => v_unexpected_element c m e). Proof. intro c. apply strip_unexpected_element. Qed.
  Lemma left_out_dec only skip k : left_out only skip k \/ ~ left_out only skip k.
  Proof.
    destruct k as [k|]; [|right; intros (x & H & _); discriminate H]. rewrite <- skipped_is. destruct (skipped only skip k); [now left|now right].
  Qed.
  Lemma new_seen s s' e i : grow s s' -> len s <= e < len s' -> ~ seen r s' e /\ (unseen r s' e i -> i = o_instr (oget s' e)).
  Proof.
    intros G He. split.
    - intro Hs. destruct (seen_read s' e Hs) as (k & y & Hy). exact (new_unread s s' e k y G He Hy).
    - destruct 1 as [e Hn|e k y Hy Ht|e k y l z Hk Hy Ht Hl Hz Htz|e y l z i Hy Ht Hl Hz Hi|e k y L i Hy Ht Hl HL Hi]; [reflexivity|exfalso; exact (new_unread s s' e _ y G He Hy)..].
  Qed.

  Lemma assert_is o m only skip s : Inv s -> valid s o CSection ->
    exists s' v, assert_all_touched o m only skip s = (s', v) /\ Inv s' /\
      ((quiet s s' /\ v = Ok tt /\ all_seen r s o only skip) \/
       (quiet s s' /\ exists i, v = raised (v_unexpected_element c0 (message_text m i) i) /\ overlooked r s o only skip i) \/
       (v = Raise Fuel /\ ~ all_seen r s o only skip /\ exists j, ~ ends r j)).
  Proof.
    intros HI HV. unfold assert_all_touched. destruct (section_spec c0 HD o s HI HV) as (s1 & v & ids & E & H1 & H2 & H3 & H4). unfold mbind at 1. rewrite E.
    destruct H4 as [->|(-> & H4 & H5)].
    { destruct (kids_quiet section_children CSection o s s1 ids (section_spec c0 HD) section_ending HI HV) as (I1 & Q1 & K1); [now left|assumption|].
      pose proof (qu_grow _ _ Q1) as G1. pose proof (gr_ext _ _ G1) as X1. pose proof (ex_len _ _ X1) as L1. pose proof (valid_ext _ _ _ _ X1 HV) as V1.
      unfold mbind at 1, the_obj. unfold mbind at 1, ofuel, get. set (els := flat_map snd (filter (fun p => negb (skipped only skip (fst p))) (o_map (oget s1 o)))).
      pose proof (fun e => els_in s1 o CSection ids only skip e I1 V1 (or_introl eq_refl) K1) as HE. fold els in HE.
      assert (KL : forall z, In z ids -> o < z < len s1) by (intros z Hz; apply (kid_lt s1 o ids z I1); [apply V1|assumption..]).
      assert (HL : low (len s1) s1). { split; [lia|]. intros a k y Ha Hy. apply (slot_lt s1 a k y I1 Ha Hy). }
      destruct (first_is (untouched_element (S (len s1))) (len s1) els s1) as (s2 & v & E' & I2 & H); [assumption|assumption|intros z Hz; apply KL; now apply HE| |].
      { intros z s3 Hz I3 L3 Hlt3. apply (untouched_is (len s1)); try assumption. lia. }
      assert (SEEN : (forall e, In e els -> seen r s1 e) <-> all_seen r s o only skip).
      { destruct (gr_kids _ _ G1 o) as [Ek|(Ek1 & Ek2 & ids' & Ek3 & Ek4)]; [apply HV| |].
        - assert (IL : forall e, In e ids -> e < len s) by (intros e He; apply (kid_lt s o ids e HI); [apply HV|congruence|assumption]).
          assert (II : forall e, In e ids -> o_instr (oget s1 e) = o_instr (oget s e)) by (intros e He; apply (instr_stays s s1 e X1); auto).
          split.
          + intro Hs. left. exists ids. split; [congruence|]. intros e He. rewrite <- II by assumption. destruct (left_out_dec only skip (n_key (hget r (o_instr (oget s1 e))))) as [|Hn]; [now left|right].
            apply (seen_back s s1); auto. apply Hs. now apply HE.
          + intros [(l & Hl & Hs)|(Hn & _)] e He; [|congruence]. assert (l = ids) as -> by congruence. apply HE in He as [He Hn]. rewrite II in Hn by assumption. destruct (Hs e He) as [Hs'|Hs']; [contradiction|].
            apply (seen_fwd s s1); auto.
        - assert (ids' = ids) as -> by congruence. assert (NE : forall e, In e ids -> ~ seen r s1 e) by (intros e He; apply (new_seen s s1 e 0 G1); split; [now apply Ek4|now apply KL]).
          assert (LI : listed r KSection (o_instr (oget s o)) (map (fun z => o_instr (oget s1 z)) ids)).
          { rewrite <- (instr_stays s s1 o X1) by apply HV. apply kids_listed; try assumption; try discriminate. now rewrite (instr_stays s s1 o X1) by apply HV. }
          split.
          + intro Hs. right. split; [assumption|]. exists (map (fun z => o_instr (oget s1 z)) ids). split; [exact LI|]. intros i Hi. apply in_map_iff in Hi as (z & <- & Hz).
            destruct (left_out_dec only skip (n_key (hget r (o_instr (oget s1 z))))) as [|Hn]; [assumption|]. exfalso. apply (NE z Hz). apply Hs. now apply HE.
          + intros [(l & Hl & _)|(_ & L & HL' & Hs)] e He; [congruence|]. apply HE in He as [He Hn]. exfalso. apply Hn. apply Hs. rewrite (listed_fun KSection _ _ _ HL' LI). now apply (in_map (fun z => o_instr (oget s1 z))). }
      assert (OVER : forall e i, In e els -> unseen r s1 e i -> overlooked r s o only skip i).
      { intros e i He Hu. apply HE in He as [He Hn]. destruct (gr_kids _ _ G1 o) as [Ek|(Ek1 & Ek2 & ids' & Ek3 & Ek4)]; [apply HV| |].
        - assert (e < len s) as Hlt by (apply (kid_lt s o ids e HI); [apply HV|congruence|assumption]). left. exists ids, e. split; [congruence|]. split; [assumption|].
          split; [now rewrite <- (instr_stays s s1 e X1 Hlt)|]. now apply (unseen_back s s1).
        - assert (ids' = ids) as -> by congruence. right. split; [assumption|]. exists (map (fun z => o_instr (oget s1 z)) ids).
          assert (i = o_instr (oget s1 e)) as -> by (apply (new_seen s s1 e i G1); [split; [now apply Ek4|now apply KL]|assumption]).
          split; [|split; [now apply (in_map (fun z => o_instr (oget s1 z)))|assumption]].
          rewrite <- (instr_stays s s1 o X1) by apply HV. apply (kids_listed s1 KSection); try assumption; try discriminate. now rewrite (instr_stays s s1 o X1) by apply HV. }
      unfold mbind at 1, ret at 1. unfold mbind. rewrite E'. destruct H as [[Q2 [[-> H]|(e & i & -> & He & H)]]|(-> & (e & He & H) & Hj)].
      + exists s2, (Ok tt). split; [reflexivity|]. split; [assumption|]. left. split; [eapply quiet_trans; eassumption|]. split; [reflexivity|]. now apply SEEN.
      + exists s2, (raised (v_unexpected_element c0 (message_text m i) i)). rewrite (fail_is c0) by (auto using blind_unexpected). split; [reflexivity|]. split; [assumption|]. right. left.
        split; [eapply quiet_trans; eassumption|]. exists i. split; [reflexivity|]. now apply (OVER e).
      + exists s2, (Raise Fuel). split; [reflexivity|]. split; [assumption|]. right. right. split; [reflexivity|]. split; [|assumption]. rewrite <- SEEN. intro Hs. apply H. now apply Hs. }
    exists s1, (Raise Fuel). split; [reflexivity|]. split; [assumption|]. right. right. split; [reflexivity|]. split; [|exists (o_instr (oget s o)); exact H4].
    intros [(l & Hl & _)|(_ & L & HL & _)]; [congruence|]. apply H4. now apply (element_list_ends r _ L).
  Qed.
  Lemma overlooked_seen o only skip s i : Inv s -> valid s o CSection -> all_seen r s o only skip -> overlooked r s o only skip i -> False.
  Proof.
    intros HI HV [(l & Hl & H)|(Hn & L & HL & H)] [(l' & e & Hl' & He & Ho & Hu)|(Hn' & L' & HL' & Hi & Ho)]; try congruence.
    - assert (l' = l) as -> by congruence. destruct (H e He) as [|Hs]; [contradiction|]. apply (seen_unseen s e i HI); try assumption. apply (kid_lt s o l e HI); [apply HV|assumption..].
    - rewrite (listed_fun KSection _ _ _ HL' HL) in Hi. auto.
  Qed.

  (** ** assert_all_touched() of a fieldset *)
  Lemma assert_entries_is o m only skip s : Inv s -> valid s o CFieldset ->
    snd (fieldset_assert_all_touched o m only skip s) = Ok tt /\ entries_seen r s o only skip \/
    snd (fieldset_assert_all_touched o m only skip s) = Raise TypeError /\ ~ entries_seen r s o only skip.
  Proof.
    intros HI HV. remember (snd (fieldset_assert_all_touched o m only skip s)) as w eqn:Ew. revert Ew. unfold fieldset_assert_all_touched. destruct (fieldset_spec c0 HD o s HI HV) as (s1 & v & ids & E & H1 & H2 & H3 & H4). unfold mbind at 1. rewrite E.
    destruct H4 as [->|(_ & H4 & _)]; [|exfalso; apply H4; apply (value_ending s o CFieldset); auto].
    destruct (kids_quiet fieldset_children CFieldset o s s1 ids (fieldset_spec c0 HD) fieldset_ending HI HV) as (I1 & Q1 & K1); [auto|assumption|].
    pose proof (qu_grow _ _ Q1) as G1. pose proof (gr_ext _ _ G1) as X1. pose proof (valid_ext _ _ _ _ X1 HV) as V1.
    unfold mbind at 1, the_obj. unfold mbind, get. pose proof (fun e => els_in s1 o CFieldset ids only skip e I1 V1 (or_intror eq_refl) K1) as HE.
    set (els := flat_map snd (filter (fun p => negb (skipped only skip (fst p))) (o_map (oget s1 o)))) in *.
    assert (KL : forall z, In z ids -> o < z < len s1) by (intros z Hz; apply (kid_lt s1 o ids z I1); [apply V1|assumption..]).
    assert (EQ : (forall z, In z els -> touched s1 z) <-> entries_seen r s o only skip).
    { destruct (gr_kids _ _ G1 o) as [Ek|(Ek1 & Ek2 & ids' & Ek3 & Ek4)]; [apply HV| |].
      - assert (IL : forall e, In e ids -> e < len s) by (intros e He; apply (kid_lt s o ids e HI); [apply HV|congruence|assumption]).
        assert (II : forall e, In e ids -> o_instr (oget s1 e) = o_instr (oget s e)) by (intros e He; apply (instr_stays s s1 e X1); auto).
        split.
        + intro H. left. exists ids. split; [congruence|]. intros e He. rewrite <- II by assumption. destruct (left_out_dec only skip (n_key (hget r (o_instr (oget s1 e))))) as [|Hn]; [now left|right].
          unfold touched. rewrite <- (qu_old _ _ Q1) by auto. apply H. now apply HE.
        + intros [(l & Hl & H)|(Hn & _)] e He; [|congruence]. assert (l = ids) as -> by congruence. apply HE in He as [He Hn]. rewrite II in Hn by assumption. destruct (H e He) as [|H']; [contradiction|].
          unfold touched. rewrite (qu_old _ _ Q1) by auto. exact H'.
      - assert (ids' = ids) as -> by congruence. assert (NE : forall e, In e ids -> ~ touched s1 e) by (intros e He; unfold touched; rewrite (qu_new _ _ Q1); [discriminate|split; [now apply Ek4|now apply KL]]).
        assert (LI : listed r KFieldset (o_instr (oget s o)) (map (fun z => o_instr (oget s1 z)) ids)).
        { rewrite <- (instr_stays s s1 o X1) by apply HV. apply kids_listed; try assumption; try discriminate. now rewrite (instr_stays s s1 o X1) by apply HV. }
        split.
        + intro H. right. split; [assumption|]. exists (map (fun z => o_instr (oget s1 z)) ids). split; [exact LI|]. intros i Hi. apply in_map_iff in Hi as (z & <- & Hz).
          destruct (left_out_dec only skip (n_key (hget r (o_instr (oget s1 z))))) as [|Hn]; [assumption|]. exfalso. apply (NE z Hz). apply H. now apply HE.
        + intros [(l & Hl & _)|(_ & L & HL' & H)] e He; [congruence|]. apply HE in He as [He Hn]. exfalso. apply Hn. apply H. rewrite (listed_fun KFieldset _ _ _ HL' LI). now apply (in_map (fun z => o_instr (oget s1 z))). }
    pose proof (find_spec (fun i => negb (o_touched (oget s1 i))) els) as F. destruct (find _ els) as [z|]; intros ->; [right|left]; (split; [reflexivity|]); rewrite <- EQ.
    - intro H. destruct F as [F1 F2]. specialize (H z F1). unfold touched in H. now rewrite H in F2.
    - intros z Hz. specialize (F z Hz). unfold touched. now destruct (o_touched (oget s1 z)).
  Qed.
End Touch.
