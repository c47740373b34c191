(** RawProofs: what raw() returns. *)
From Coq Require Import Permutation.
From Verif Require Import Base Types Messages Resolver Reporter Errors Context Elements SpecTree SpecRead SpecApi SpecQuery SpecLoad SpecRaw Reads ReadLinks PropReadProofs ApiDoc ApiInv QueryProofs LoadProofs.

Scheme raw_tree_rec2 := Induction for raw_tree Sort Prop
with raw_trees_rec2 := Induction for raw_trees Sort Prop.
Combined Scheme raw_tree_both from raw_tree_rec2, raw_trees_rec2.

(** ** Height of a description *)
Fixpoint height (x : raw_t) : nat :=
  match x with
  | RawList _ _ l | RawFieldset _ _ l | RawSection _ _ l | RawDocument l => S (fold_right (fun y n => Nat.max (height y) n) 0 l)
  | _ => 1
  end.
Definition heights (l : list raw_t) : nat := fold_right (fun y n => Nat.max (height y) n) 0 l.
Lemma height_pos x : 0 < height x. Proof. destruct x; cbn; lia. Qed.

Section Raw.
  Context (r : heap) (HD : Doc r) (inp : text).
  Notation Cached := (Cached inp r).
  Notation raw_tree := (raw_tree inp r).
  Notation raw_trees := (raw_trees inp r).

  (** ** Lists *)
  Lemma raw_list_from e l : raw_list r e l -> forall x, In x l -> exists e', In x (own_elements r e').
  Proof.
    induction 1 as [e H|e t l l' H1 H2 IH H3]; intros x Hx; eauto.
    apply in_app_or in Hx as [Hx|Hx]; [|eauto]. apply IH. eapply without_sub; eassumption.
  Qed.
  Lemma raw_list_keys e l : raw_list r e l -> forall x, In x l -> n_key (hget r x) <> None.
  Proof. intros H x Hx. destruct (raw_list_from e l H x Hx) as (e' & He). eapply own_element_keys; eassumption. Qed.
  Lemma raw_list_at e l : raw_list r e l <-> elements_at r e l.
  Proof.
    split.
    - induction 1 as [e [H1 H2]|e t l l' [H1 H2] Hl IH Hw]; [now apply la_own|].
      rewrite (without_is r (own_elements r e) l l' Hw); [|apply (own_element_keys r HD)|now apply (raw_list_keys t)]. now apply (la_extend r e t l).
    - induction 1 as [e H1 H2|e t l H1 H2 Hl IH]; [now apply rl_own|]. apply (rl_extend r e t l); [now split|assumption|].
      destruct (without_total r (own_elements r e) l) as (l' & Hl'); [apply (own_element_keys r HD)|now apply (raw_list_keys t)|].
      change (n_elements (hget r e)) with (own_elements r e). rewrite <- (without_is r (own_elements r e) l l' Hl'); [assumption|apply (own_element_keys r HD)|now apply (raw_list_keys t)].
  Qed.
  Lemma raw_list_fun e l l' : raw_list r e l -> raw_list r e l' -> l = l'.
  Proof. rewrite !raw_list_at. apply elements_at_fun. Qed.
  Lemma filter_perm {A} (f : A -> bool) l l' : Permutation l l' -> Permutation (filter f l) (filter f l').
  Proof.
    induction 1 as [|x l l' H IH|x y l|l l2 l3 H1 IH1 H2 IH2]; cbn; [constructor| | |eapply perm_trans; eassumption].
    - destruct (f x); [now constructor|assumption].
    - destruct (f x), (f y); try apply Permutation_refl; constructor.
  Qed.
  Lemma raw_order e L L' : element_list r e L -> raw_list r e L' -> Permutation L L' /\ (plain r e -> L = L').
  Proof.
    intros H1 H2. revert L H1. induction H2 as [e [P1 P2]|e t l l' [E1 E2] Hl IH Hw]; intros L H1; inversion H1 as [e' H|e' m' ? H|e' t' k k' H Hk Hw']; subst.
    - split; auto.
    - congruence.
    - destruct H; congruence.
    - destruct H; congruence.
    - congruence.
    - assert (t' = t) as -> by (destruct H; congruence). split; [|intros []; congruence]. destruct (IH k Hk) as [P _].
      rewrite (without_is r (own_elements r e) l l' Hw); [|apply (own_element_keys r HD)|now apply (raw_list_keys t)].
      rewrite (without_is r (own_elements r e) k k' Hw'); [|apply (own_element_keys r HD)|now apply (element_list_keys r HD t)].
      eapply perm_trans; [apply Permutation_app_comm|]. apply Permutation_app_tail. now apply filter_perm.
  Qed.

  Lemma items_is e p : path r e p -> n_type (hget r e) = LIST -> forall l, item_list r e l -> forall fuel h, Cached [] h -> length p <= fuel ->
    items_at r e l /\ exists h', items fuel e h = (h', Ok l) /\ Cached [] h'.
  Proof.
    induction 1 as [e H1 H2|e m p Hf Hp IH]; intros Ht l Hl [|fuel] h HC Hle; cbn in Hle; try lia;
      cbn [items]; unfold mbind, hnode; rewrite (ca_mirror _ _ h e HC), (ca_extend _ _ h e HC).
    - rewrite H1, H2, (ca_its _ _ h e HC). inversion Hl as [? _|? ? ? M|? ? ? [M1 M2]]; subst; [|unfold mirrors in M; congruence|congruence].
      split; [now apply ia_own|]. exists h. split; [|assumption]. unfold own_items. destruct (n_items (hget r e)); reflexivity.
    - assert (n_type (hget r m) = LIST) as Tm by (apply (doc_list r HD e m Ht); exact Hf). destruct Hf as [Hf|[Hf1 Hf2]].
      + rewrite Hf. inversion Hl as [? [M _]|? m' ? M Hm|? ? ? [M _]]; subst; try congruence. assert (m' = m) as -> by (unfold mirrors in M; congruence).
        destruct (IH Tm l Hm fuel h HC) as (G1 & h' & G2 & G3); [lia|]. split; [eapply ia_mirror; eassumption|eauto].
      + rewrite Hf1, Hf2. inversion Hl as [? [_ M]|? m' ? M|? t k [_ M] Hk]; subst; try (unfold mirrors in M; congruence). assert (t = m) as -> by congruence.
        pose proof (doc_list_own r HD e Ht Hf1) as Ho. destruct (n_items (hget r e)) as [own|] eqn:Eo; [|contradiction].
        assert (Eow : own_items r e = own) by (unfold own_items; now rewrite Eo). rewrite Eow.
        destruct (IH Tm k Hk fuel h HC) as (G1 & h' & G2 & G3); [lia|]. assert (items_at r e (k ++ own)) as Ha by (eapply ia_extend; eassumption).
        split; [assumption|]. destruct (n_citems (hget h e)) as [v|] eqn:Ev.
        { exists h. split; [|assumption]. unfold ret. do 2 f_equal. exact (items_at_fun _ _ _ _ (ca_items _ _ _ _ HC e v Ev) Ha). }
        rewrite G2. unfold lift. rewrite (ca_its _ _ h e HC), Eo. cbn [key_or]. unfold hset, ret. eexists. split; [reflexivity|]. now apply cached_items.
  Qed.
  Lemma item_from e l : item_list r e l -> forall x, In x l -> exists e', In x (own_items r e').
  Proof. induction 1 as [e H|e m l H1 H2 IH|e t l H1 H2 IH]; intros x Hx; eauto. apply in_app_or in Hx as [Hx|Hx]; eauto. Qed.
  Lemma entries_list e l : entry_list r e l -> n_type (hget r e) = FIELDSET -> entries_at r e l.
  Proof.
    induction 1 as [e H|e m l H Hl IH|e t l l' H Hl IH Hw]; intro Ht.
    - pose proof (doc_fieldset_own r HD e Ht (proj1 H)) as Ho. unfold own_entries. destruct (n_entries (hget r e)) as [own|] eqn:Eo; [|contradiction].
      destruct H. now apply ea_own.
    - eapply ea_mirror; [exact H|]. apply IH. apply (doc_fieldset r HD e m Ht). now left.
    - pose proof (doc_fieldset_own r HD e Ht (proj1 H)) as Ho. assert (n_type (hget r t) = FIELDSET) as Tt by (apply (doc_fieldset r HD e t Ht); now right).
      rewrite (without_is r (own_entries r e) l l' Hw); [|apply (own_entry_key r HD)|now apply (entry_list_keys r HD t)].
      unfold own_entries in *. destruct (n_entries (hget r e)) as [own|] eqn:Eo; [|contradiction]. destruct H. apply (ea_extend r e t l own); auto.
  Qed.

  (** ** The single steps *)
  Definition comment_part (e : nat) : hM (option (option text)) :=
    let! n := hnode e in match n_comments n with Some _ => let! v := comment e in ret (Some v) | None => ret None end.
  Lemma comment_part_is e h : Cached [] h -> exists h' v, comment_part e h = (h', v) /\ Cached [] h' /\
    match v with Ok x => raw_comment r e x | Raise _ => forall x, ~ raw_comment r e x end.
  Proof.
    intro HC. unfold comment_part, mbind, hnode, raw_comment. rewrite (ca_comments _ _ h e HC). destruct (n_comments (hget r e)) as [cs|] eqn:Ec.
    2:{ exists h, (Ok None). auto. }
    destruct (comment_run inp r e [] h HC) as [(x & H1 & H2 & E)|(v & h' & E & Hv & HC')]; rewrite E.
    - eexists h, _. split; [reflexivity|]. split; [assumption|]. assert (cs = [x]) as -> by congruence. intros y [H _]. unfold hollow_comment in H. rewrite Ec, H2 in H. discriminate.
    - eexists h', _. split; [reflexivity|]. split; [assumption|]. assert (hollow_comment r e = false) as Hh.
      { unfold comment_at in Hv. unfold hollow_comment. rewrite Ec in *. destruct cs as [|x [|y cs]]; try reflexivity. destruct Hv as [Hv _]. now destruct (l_text x). }
      split; [assumption|]. exists v. split; [|reflexivity]. unfold comment_at in Hv. rewrite Ec in Hv. destruct cs as [|x [|y cs]].
      + subst v. apply multi_block.
      + destruct Hv as [Hv ->]. destruct (l_text x) eqn:El; [|contradiction]. now apply single_block.
      + subst v. apply multi_block.
  Qed.
  Lemma raw_comment_fun e a b : raw_comment r e a -> raw_comment r e b -> a = b.
  Proof.
    unfold raw_comment. destruct (n_comments (hget r e)); [|congruence]. intros (_ & v & H & ->) (_ & w & G & ->). f_equal. eapply block_text_fun; eassumption.
  Qed.
  Lemma raw_comment_total e : hollow_comment r e = false -> exists x, raw_comment r e x.
  Proof. unfold raw_comment. destruct (n_comments (hget r e)) as [ls|]; intro H; [|eauto]. exists (Some (multi_comment ls)). split; [assumption|]. exists (multi_comment ls). split; [apply multi_block|reflexivity]. Qed.

  Lemma value_spec e v : value_text inp r e v <-> value_at inp r e v.
  Proof.
    split.
    - induction 1 as [e v H1 H2|e m v H1 H2 IH]; [|eapply va_mirror; eassumption].
      rewrite (plain_value_fun inp _ _ _ H2 (own_plain inp (hget r e))). now apply va_own.
    - induction 1 as [e H1|e m v H1 H2 IH]; [apply vt_own; [assumption|apply own_plain]|eapply vt_mirror; eassumption].
  Qed.
  Lemma value_is e h : n_type (hget r e) <> SECTION -> Cached [] h -> exists h' v, value inp (S (length h)) e h = (h', Ok v) /\ Cached [] h' /\ value_text inp r e v.
  Proof.
    intros Ht HC. destruct (ends_path r e (doc_ends r HD e Ht)) as (p & Hp). rewrite (ca_len _ _ _ _ HC).
    destruct (value_run inp r e p Hp [] (S (length r)) h HC (path_length _ _ _ Hp)) as (v & h' & E & Hv & HC'). exists h', v. split; [assumption|]. split; [assumption|]. now apply value_spec.
  Qed.
  Lemma value_one e v w : value_text inp r e v -> value_text inp r e w -> v = w.
  Proof. rewrite !value_spec. apply value_at_fun. Qed.
  Lemma items_run2 e h : n_type (hget r e) = LIST -> Cached [] h -> exists h' l, items (S (length h)) e h = (h', Ok l) /\ Cached [] h' /\ item_list r e l.
  Proof.
    intros Ht HC. assert (ends r e) as He by (apply (doc_ends r HD e); congruence). destruct (ends_path r e He) as (p & Hp). rewrite (ca_len _ _ _ _ HC).
    destruct (item_list_total r e He) as (l & Hl). destruct (items_is e p Hp Ht l Hl (S (length r)) h HC (path_length _ _ _ Hp)) as (_ & h' & E & HC'). eauto 6.
  Qed.
  Lemma entries_run2 e h : n_type (hget r e) = FIELDSET -> Cached [] h -> exists h' l, entries (S (length h)) e h = (h', Ok l) /\ Cached [] h' /\ entry_list r e l.
  Proof.
    intros Ht HC. assert (ends r e) as He by (apply (doc_ends r HD e); congruence). rewrite (ca_len _ _ _ _ HC). destruct (entry_list_total r HD e He) as (l & Hl).
    destruct (entries (S (length r)) e h) as [h' v] eqn:E. destruct (entries_keeps inp r _ _ [] _ _ _ HC (fits_all r e) E) as (K1 & _ & K2).
    exists h', l. split; [|split; assumption]. now rewrite (K2 l (entries_list e l Hl Ht)).
  Qed.
  Lemma elements_run2 e h l : raw_list r e l -> Cached [] h -> exists h', elements (S (length h)) e h = (h', Ok (Some l)) /\ Cached [] h'.
  Proof.
    intros Hl HC. rewrite (ca_len _ _ _ _ HC). destruct (elements (S (length r)) e h) as [h' v] eqn:E.
    destruct (elements_keeps inp r _ _ [] _ _ _ HC (fits_all r e) E) as (K1 & _ & _ & K2). exists h'. split; [|assumption]. apply raw_list_at in Hl. now rewrite (K2 l Hl).
  Qed.

  (** ** Descriptions are unique *)
  Lemma raw_fun : (forall e x, raw_tree e x -> forall y, raw_tree e y -> x = y) /\ (forall l xs, raw_trees l xs -> forall ys, raw_trees l ys -> xs = ys).
  Proof.
    apply raw_tree_both.
    1-8: intros; match goal with H : raw_tree _ ?y |- _ = ?y => inversion H; subst end; try congruence; try (intuition congruence);
      repeat match goal with H : raw_comment r ?e ?a, G : raw_comment r ?e ?b |- _ => assert (a = b) by (now apply (raw_comment_fun e)); subst; clear G end.
    - f_equal; congruence.
    - f_equal; [congruence|]. now apply (value_one e).
    - f_equal. now apply (value_one e).
    - f_equal; [congruence|]. now apply (value_one e).
    - assert (l0 = l) as -> by (now apply (item_list_fun r e)). f_equal; [congruence|auto].
    - assert (l0 = l) as -> by (now apply (entry_list_fun r HD e)). f_equal; [congruence|auto].
    - assert (l0 = l) as -> by (now apply (raw_list_fun e)). f_equal; [congruence|auto].
    - assert (l0 = l) as -> by (now apply (raw_list_fun e)). f_equal; auto.
    - intros ys H. now inversion H.
    - intros e l x xs H IH Hs IHs ys G. inversion G; subst. f_equal; auto.
  Qed.

  (** ** raw() finds the description *)
  Definition raw_rest (f big e : nat) (n : node) (c : option (option text)) : hM raw_t :=
    let key := lift (key_or (n_key n)) in
    match n_type n with
    | EMPTY_ELEMENT => let! k := key in ret (RawEmpty c k)
    | FIELD | MULTILINE_FIELD_BEGIN => let! k := key in let! v := value inp big e in ret (RawField c k v)
    | LIST_ITEM => let! v := value inp big e in ret (RawItem c v)
    | FIELDSET_ENTRY => let! k := key in let! v := value inp big e in ret (RawEntry c k v)
    | LIST => let! k := key in let! l := items big e in let! rs := mapM (raw inp f) l in ret (RawList c k rs)
    | FIELDSET => let! k := key in let! l := entries big e in let! rs := mapM (raw inp f) l in ret (RawFieldset c k rs)
    | SECTION => let! k := key in let! l := elements big e in
        match l with None => raise TypeError | Some l => let! rs := mapM (raw inp f) l in ret (RawSection c k rs) end
    | DOCUMENT => let! l := elements big e in
        match l with None => raise TypeError | Some l => let! rs := mapM (raw inp f) l in ret (RawDocument rs) end
    | _ => ret (RawOther c)
    end.
  Lemma raw_unfold f e h : raw inp (S f) e h = mbind (comment_part e) (raw_rest f (S (length h)) e (hget h e)) h.
  Proof. cbn [raw]. unfold mbind at 1, get. unfold comment_part, hnode, mbind, raw_rest. destruct (n_comments (hget h e)); [destruct (comment e h) as [h1 [v|x]]; reflexivity|reflexivity]. Qed.
  Lemma raw_step f e h : Cached [] h ->
    exists h1, Cached [] h1 /\ ((exists c, raw_comment r e c /\ raw inp (S f) e h = raw_rest f (S (length h1)) e (hget r e) c h1) \/
      (forall c, ~ raw_comment r e c) /\ exists ex, raw inp (S f) e h = (h1, Raise ex)).
  Proof.
    intro HC. rewrite raw_unfold. unfold mbind. destruct (comment_part_is e h HC) as (h1 & v & E & HC1 & Hv). exists h1. split; [assumption|]. rewrite E.
    destruct v as [c|ex]; [left|right; eauto]. exists c. split; [assumption|]. unfold raw_rest.
    now rewrite (ca_type _ _ h e HC), (ca_key _ _ h e HC), (ca_len _ _ _ _ HC), (ca_len _ _ _ _ HC1).
  Qed.
  Lemma raw_start f e h c : Cached [] h -> raw_comment r e c -> exists h1, Cached [] h1 /\ raw inp (S f) e h = raw_rest f (S (length h1)) e (hget r e) c h1.
  Proof.
    intros HC Hc. destruct (raw_step f e h HC) as (h1 & HC1 & [(c' & Hc' & E)|[N _]]); [|now apply N in Hc]. exists h1. split; [assumption|].
    now rewrite (raw_comment_fun e c c').
  Qed.

  Lemma raw_runs : (forall e x, raw_tree e x -> forall fuel h, Cached [] h -> height x <= fuel -> exists h', raw inp fuel e h = (h', Ok x) /\ Cached [] h') /\
    (forall l xs, raw_trees l xs -> forall fuel h, Cached [] h -> heights xs <= fuel -> exists h', mapM (raw inp fuel) l h = (h', Ok xs) /\ Cached [] h').
  Proof.
    assert (G : forall e, n_type (hget r e) = FIELD \/ n_type (hget r e) = MULTILINE_FIELD_BEGIN -> n_type (hget r e) <> SECTION) by (intros e [H|H]; congruence).
    apply raw_tree_both.
    - intros e c k Ht Hc Hk [|f] h HC Hf; [cbn in Hf; lia|]. destruct (raw_start f e h c HC Hc) as (h1 & HC1 & ->). unfold raw_rest. rewrite Ht, Hk.
      unfold mbind, lift, key_or, ret. eauto.
    - intros e c k v Ht Hc Hk Hv [|f] h HC Hf; [cbn in Hf; lia|]. destruct (raw_start f e h c HC Hc) as (h1 & HC1 & ->). unfold raw_rest. rewrite Hk.
      destruct (value_is e h1 (G e Ht) HC1) as (h2 & w & E & HC2 & Hw). rewrite (value_one e w v Hw Hv) in E.
      unfold mbind, lift, key_or, ret. destruct Ht as [-> | ->]; rewrite E; eauto.
    - intros e c v Ht Hc Hv [|f] h HC Hf; [cbn in Hf; lia|]. destruct (raw_start f e h c HC Hc) as (h1 & HC1 & ->). unfold raw_rest. rewrite Ht.
      destruct (value_is e h1) as (h2 & w & E & HC2 & Hw); [congruence|assumption|]. rewrite (value_one e w v Hw Hv) in E.
      unfold mbind, lift, key_or, ret. rewrite E; eauto.
    - intros e c k v Ht Hc Hk Hv [|f] h HC Hf; [cbn in Hf; lia|]. destruct (raw_start f e h c HC Hc) as (h1 & HC1 & ->). unfold raw_rest. rewrite Ht, Hk.
      destruct (value_is e h1) as (h2 & w & E & HC2 & Hw); [congruence|assumption|]. rewrite (value_one e w v Hw Hv) in E.
      unfold mbind, lift, key_or, ret. rewrite E; eauto.
    - intros e c k l xs Ht Hc Hk Hl Hxs IH [|f] h HC Hf; [cbn in Hf; lia|]. destruct (raw_start f e h c HC Hc) as (h1 & HC1 & ->). unfold raw_rest. rewrite Ht, Hk.
      destruct (items_run2 e h1 Ht HC1) as (h2 & w & E & HC2 & Hw). rewrite (item_list_fun r e w Hw l Hl) in E.
      unfold mbind, lift, key_or, ret. rewrite E. destruct (IH f h2 HC2) as (h3 & E3 & HC3); [cbn in Hf; unfold heights; lia|]. rewrite E3. eauto.
    - intros e c k l xs Ht Hc Hk Hl Hxs IH [|f] h HC Hf; [cbn in Hf; lia|]. destruct (raw_start f e h c HC Hc) as (h1 & HC1 & ->). unfold raw_rest. rewrite Ht, Hk.
      destruct (entries_run2 e h1 Ht HC1) as (h2 & w & E & HC2 & Hw). rewrite (entry_list_fun r HD e w Hw l Hl) in E.
      unfold mbind, lift, key_or, ret. rewrite E. destruct (IH f h2 HC2) as (h3 & E3 & HC3); [cbn in Hf; unfold heights; lia|]. rewrite E3. eauto.
    - intros e c k l xs Ht Hc Hk Hl Hxs IH [|f] h HC Hf; [cbn in Hf; lia|]. destruct (raw_start f e h c HC Hc) as (h1 & HC1 & ->). unfold raw_rest. rewrite Ht, Hk.
      destruct (elements_run2 e h1 l Hl HC1) as (h2 & E & HC2).
      unfold mbind, lift, key_or, ret. rewrite E. destruct (IH f h2 HC2) as (h3 & E3 & HC3); [cbn in Hf; unfold heights; lia|]. rewrite E3. eauto.
    - intros e c l xs Ht Hc Hl Hxs IH [|f] h HC Hf; [cbn in Hf; lia|]. destruct (raw_start f e h c HC Hc) as (h1 & HC1 & ->). unfold raw_rest. rewrite Ht.
      destruct (elements_run2 e h1 l Hl HC1) as (h2 & E & HC2).
      unfold mbind, lift, key_or, ret. rewrite E. destruct (IH f h2 HC2) as (h3 & E3 & HC3); [cbn in Hf; unfold heights; lia|]. rewrite E3. eauto.
    - intros fuel h HC _. exists h. auto.
    - intros e l x xs Hx IHx Hxs IHxs fuel h HC Hf. cbn in Hf. destruct (IHx fuel h HC) as (h1 & E1 & HC1); [unfold heights in *; lia|].
      destruct (IHxs fuel h1 HC1) as (h2 & E2 & HC2); [unfold heights in *; lia|]. exists h2. cbn [mapM]. unfold mbind. rewrite E1, E2. auto.
  Qed.

  (** ** What raw() returns is the description, if no section is just another one *)
  Lemma raw_sound : (forall e, ends r e) -> (forall e m, is_section (hget r e) -> ~ mirrors r e m) -> (forall e t, is_section (hget r e) -> extends r e t -> is_section (hget r t)) ->
    forall fuel e h h' x, Cached [] h -> is_container (hget r e) \/ is_element (hget r e) \/ n_type (hget r e) = LIST_ITEM \/ n_type (hget r e) = FIELDSET_ENTRY ->
    e < length r -> raw inp fuel e h = (h', Ok x) -> raw_tree e x /\ Cached [] h'.
  Proof.
    intros HE HM HX. assert (HL : forall e, e < length r -> is_container (hget r e) -> exists l, raw_list r e l).
    { intros e He [Hc|Hc].
      - assert (e = 0) as ->. { destruct e as [|e]; [reflexivity|]. destruct (doc_parent r HD (S e)) as (p & _ & _ & D & _); [lia|contradiction]. }
        eexists. apply rl_own. apply (doc_root r HD).
      - clear He. induction (HE e) as [e H|e m H1 H2 IH|e t H1 H2 IH]; [eexists; now apply rl_own|exfalso; eapply HM; eassumption|].
        destruct IH as (l & Hl); [eapply HX; eassumption|].
        destruct (without_total r (own_elements r e) l) as (l' & Hl'); [apply (own_element_keys r HD)|now apply (raw_list_keys t)|]. eexists. eapply rl_extend; eassumption. }
    intro fuel. induction fuel as [|f IH]; intros e h h' x HC Hk He; [discriminate|].
    destruct (raw_step f e h HC) as (h1 & HC1 & [(c & Hc & ->)|[_ (ex & ->)]]); [|discriminate].
    assert (HM2 : forall l h h' xs, Cached [] h -> (forall y, In y l -> y < length r /\ (is_container (hget r y) \/ is_element (hget r y) \/ n_type (hget r y) = LIST_ITEM \/ n_type (hget r y) = FIELDSET_ENTRY)) ->
      mapM (raw inp f) l h = (h', Ok xs) -> raw_trees l xs /\ Cached [] h').
    { clear - IH. intro l. induction l as [|y l IHl]; intros h h' xs HC Hy; cbn [mapM].
      - intros [= <- <-]. split; [constructor|assumption].
      - unfold mbind. destruct (raw inp f y h) as [h1 [z|ex]] eqn:E1; [|discriminate]. destruct (mapM (raw inp f) l h1) as [h2 [zs|ex]] eqn:E2; [|discriminate].
        intros [= <- <-]. destruct (Hy y (or_introl eq_refl)) as [Y1 Y2]. destruct (IH y h h1 z HC Y2 Y1 E1) as [T1 C1].
        destruct (IHl h1 h2 zs C1 (fun y Hi => Hy y (or_intror Hi)) E2) as [T2 C2]. split; [now constructor|assumption]. }
    assert (HEl : forall l y, raw_list r e l -> In y l -> y < length r /\ (is_container (hget r y) \/ is_element (hget r y) \/ n_type (hget r y) = LIST_ITEM \/ n_type (hget r y) = FIELDSET_ENTRY)).
    { intros l y Hl Hy. destruct (raw_list_from e l Hl y Hy) as (e' & Hy'). destruct (doc_elements r HD e' y Hy') as (D1 & D2 & _). split; [assumption|]. destruct D2; [tauto|left; now right]. }
    unfold raw_rest, mbind, lift, key_or, ret. destruct (n_type (hget r e)) eqn:Ht;
      try (exfalso; unfold is_container, is_element in Hk; rewrite !Ht in Hk; destruct Hk as [[Hk|Hk]|[Hk|[Hk|Hk]]]; try discriminate; destruct Hk; fail);
      try (destruct (n_key (hget r e)) as [k|] eqn:Ek; [|discriminate]).
    all: try (intros [= <- <-]; split; [constructor; assumption|assumption]).
    all: try (destruct (value_is e h1) as (h2 & v & E & HC2 & Hv); [congruence|assumption|]; rewrite E; intros [= <- <-]; split; [constructor; auto|assumption]).
    all: try (destruct (items_run2 e h1 Ht HC1) as (h2 & l & E & HC2 & Hl); rewrite E; destruct (mapM (raw inp f) l h2) as [h3 [xs|ex]] eqn:E3; [|discriminate];
      intros [= <- <-]; destruct (HM2 l h2 h3 xs HC2) as [T1 C1]; [|assumption|split; [econstructor; eassumption|assumption]];
      intros y Hy; destruct (item_from e l Hl y Hy) as (e' & Hy'); destruct (doc_items r HD e' y Hy') as [D1 D2]; tauto).
    all: try (destruct (entries_run2 e h1 Ht HC1) as (h2 & l & E & HC2 & Hl); rewrite E; destruct (mapM (raw inp f) l h2) as [h3 [xs|ex]] eqn:E3; [|discriminate];
      intros [= <- <-]; destruct (HM2 l h2 h3 xs HC2) as [T1 C1]; [|assumption|split; [econstructor; eassumption|assumption]];
      intros y Hy; destruct (entry_list_from r e l Hl y Hy) as (e' & Hy'); destruct (doc_entries r HD e' y Hy') as (D1 & D2 & _); tauto).
    all: (destruct (HL e He) as (l & Hl); [unfold is_container; tauto|]); destruct (elements_run2 e h1 l Hl HC1) as (h2 & E & HC2); rewrite E;
      destruct (mapM (raw inp f) l h2) as [h3 [xs|ex]] eqn:E3; [|discriminate]; intros [= <- <-];
      destruct (HM2 l h2 h3 xs HC2) as [T1 C1]; [intros y Hy; now apply (HEl l)|assumption|split; [econstructor; eassumption|assumption]].
  Qed.

  (** ** The fuel suffices *)
  Lemma descends : (forall e x, raw_tree e x -> forall k, 1 <= k < height x -> exists n y, n < length r /\ raw_tree n y /\ height y = k) /\
    (forall l xs, raw_trees l xs -> (forall y, In y l -> y < length r) -> forall k, 1 <= k <= heights xs -> exists n y, n < length r /\ raw_tree n y /\ height y = k).
  Proof.
    apply raw_tree_both; try (intros; cbn in *; lia).
    - intros e c k l xs Ht Hc Hk Hl Hxs IH j Hj. apply IH; [|cbn in Hj; unfold heights; lia]. intros y Hy. destruct (item_from e l Hl y Hy) as (e' & Hy'). apply (doc_items r HD e' y Hy').
    - intros e c k l xs Ht Hc Hk Hl Hxs IH j Hj. apply IH; [|cbn in Hj; unfold heights; lia]. intros y Hy. destruct (entry_list_from r e l Hl y Hy) as (e' & Hy'). apply (doc_entries r HD e' y Hy').
    - intros e c k l xs Ht Hc Hk Hl Hxs IH j Hj. apply IH; [|cbn in Hj; unfold heights; lia]. intros y Hy. destruct (raw_list_from e l Hl y Hy) as (e' & Hy'). apply (doc_elements r HD e' y Hy').
    - intros e c l xs Ht Hc Hl Hxs IH j Hj. apply IH; [|cbn in Hj; unfold heights; lia]. intros y Hy. destruct (raw_list_from e l Hl y Hy) as (e' & Hy'). apply (doc_elements r HD e' y Hy').
    - intros e l x xs Hx IHx Hxs IHxs Hy k Hk. cbn in Hk. fold (heights xs) in Hk. destruct (Nat.le_gt_cases k (heights xs)) as [L|L]; [apply IHxs; [intros; apply Hy; now right|lia]|].
      destruct (Nat.eq_dec k (height x)) as [->|Ne]; [|apply IHx; lia]. exists e, x. split; [apply Hy; now left|auto].
  Qed.
  Lemma height_bound e x : raw_tree e x -> height x <= S (length r).
  Proof.
    intro H. assert (forall k, k < height x -> exists l, length l = k /\ NoDup l /\ forall n, In n l -> n < length r /\ exists y, raw_tree n y /\ height y <= k) as G.
    { induction k as [|k IH]; intro Hk; [exists []; repeat split; [constructor|destruct H0|destruct H0]|]. destruct IH as (l & L1 & L2 & L3); [lia|].
      destruct (proj1 descends e x H (S k)) as (n & y & N1 & N2 & N3); [lia|]. exists (n :: l). split; [cbn; lia|]. split.
      - constructor; [|assumption]. intro Hn. destruct (L3 n Hn) as (_ & z & Z1 & Z2). rewrite (proj1 raw_fun n y N2 z Z1) in N3. lia.
      - intros m [<-|Hm]; [split; [assumption|exists y; split; [assumption|lia]]|]. destruct (L3 m Hm) as (M1 & z & Z1 & Z2). split; [assumption|]. exists z. split; [assumption|lia]. }
    pose proof (height_pos x) as Hp. destruct (G (height x - 1)) as (l & L1 & L2 & L3); [lia|].
    assert (length l <= length (seq 0 (length r))) as Hl by (apply NoDup_incl_length; [assumption|]; intros n Hn; apply in_seq; destruct (L3 n Hn); lia).
    rewrite seq_length in Hl. lia.
  Qed.

  (** ** Documents without copied sections *)
  Lemma raw_exists : (forall e, is_section (hget r e) -> plain r e) -> (forall e, hollow_comment r e = false) -> (forall e x, In x (own_elements r e) -> e < x) ->
    forall e, e < length r -> is_container (hget r e) \/ is_element (hget r e) \/ n_type (hget r e) = LIST_ITEM \/ n_type (hget r e) = FIELDSET_ENTRY ->
    (n_type (hget r e) <> DOCUMENT -> n_type (hget r e) <> LIST_ITEM -> n_key (hget r e) <> None) -> exists x, raw_tree e x.
  Proof.
    intros HP HH HT. assert (HV : forall e, n_type (hget r e) <> SECTION -> exists v, value_text inp r e v).
    { intros e He. destruct (ends_path r e (doc_ends r HD e He)) as (p & Hp). destruct (value_ends inp r e p Hp) as (v & Hv). exists v. now apply value_spec. }
    assert (HA : forall l, (forall y, In y l -> exists x, raw_tree y x) -> exists xs, raw_trees l xs).
    { induction l as [|y l IH]; intro Hy; [exists []; constructor|]. destruct (Hy y (or_introl eq_refl)) as (x & Hx). destruct IH as (xs & Hxs); [intros; apply Hy; now right|].
      exists (x :: xs). now constructor. }
    assert (HI : forall y, n_type (hget r y) = LIST_ITEM -> exists x, raw_tree y x).
    { intros y Hy. destruct (HV y) as (v & Hv); [congruence|]. destruct (raw_comment_total y (HH y)) as (c & Hc). exists (RawItem c v). now constructor. }
    assert (HF : forall y, n_type (hget r y) = FIELDSET_ENTRY -> n_key (hget r y) <> None -> exists x, raw_tree y x).
    { intros y Hy Hk. destruct (HV y) as (v & Hv); [congruence|]. destruct (raw_comment_total y (HH y)) as (c & Hc). destruct (n_key (hget r y)) as [k|] eqn:Ek; [|contradiction].
      exists (RawEntry c k v). now constructor. }
    assert (forall n e, length r - e <= n -> e < length r -> is_container (hget r e) \/ is_element (hget r e) \/ n_type (hget r e) = LIST_ITEM \/ n_type (hget r e) = FIELDSET_ENTRY ->
      (n_type (hget r e) <> DOCUMENT -> n_type (hget r e) <> LIST_ITEM -> n_key (hget r e) <> None) -> exists x, raw_tree e x) as G; [|intros; eapply G; eauto].
    induction n as [|n IH]; intros e Hn He Hk Hkey; [lia|]. destruct (raw_comment_total e (HH e)) as (c & Hc).
    assert (HS : exists xs, raw_trees (own_elements r e) xs).
    { apply HA. intros y Hy. pose proof (HT e y Hy). destruct (doc_elements r HD e y Hy) as (D1 & D2 & D3). apply IH; [lia|assumption| |auto]. destruct D2; [tauto|left; now right]. }
    destruct HS as (xs & Hxs). destruct (n_type (hget r e)) eqn:Ht;
      try (exfalso; unfold is_container, is_element in Hk; rewrite !Ht in Hk; destruct Hk as [[Hk|Hk]|[Hk|[Hk|Hk]]]; try discriminate; destruct Hk; fail);
      try (destruct (n_key (hget r e)) as [k|] eqn:Ek; [|exfalso; apply Hkey; congruence]).
    all: try (destruct (HV e) as (v & Hv); [congruence|]).
    all: try (now apply HI). all: try (apply HF; [assumption|congruence]).
    all: try solve [eexists; eapply rt_empty; eauto|eexists; eapply rt_field; eauto].
    all: try (destruct (item_list_total r e) as (l & Hl); [apply (doc_ends r HD); congruence|]; destruct (HA l) as (ys & Hys);
      [intros y Hy; destruct (item_from e l Hl y Hy) as (e' & Hy'); apply HI; apply (doc_items r HD e' y Hy')|eexists; eapply rt_list; eassumption]).
    all: try (destruct (entry_list_total r HD e) as (l & Hl); [apply (doc_ends r HD); congruence|]; destruct (HA l) as (ys & Hys);
      [intros y Hy; destruct (entry_list_from r e l Hl y Hy) as (e' & Hy'); apply HF; apply (doc_entries r HD e' y Hy')|eexists; eapply rt_fieldset; eassumption]).
    - eexists. eapply rt_document; try eassumption. apply rl_own. assert (e = 0) as ->; [|apply (doc_root r HD)].
      destruct e as [|e]; [reflexivity|]. destruct (doc_parent r HD (S e)) as (p & _ & _ & D & _); [lia|contradiction].
    - eexists. eapply rt_section; try eassumption. apply rl_own. now apply HP.
  Qed.
End Raw.
