(** ResolverMerge: which section each section is linked to once all copies are resolved. *)
From Coq Require Import Relations.
From Verif Require Import Base Types Scan Analyzer TokenStep HeapFacts AnalyzerInv AnalyzerLoop SpecTree AnalyzerTree
  AnalyzerFinal AnalyzerCopies Resolver SpecResolve ResolverIndex ResolverFields ResolverSections ResolverFinal SpecLinks ResolverLinks
  SpecRead SpecApi SpecMerge.

(** * Which subsections a merge pairs *)
Section Mergers.
  Context (h : heap).
  Definition named (k : text) (l : list nat) : list nat := filter (fun e => text_eqb k (key_of h e)) l.
  Lemma named_app k l1 l2 : named k (l1 ++ l2) = named k l1 ++ named k l2.
  Proof. apply filter_app. Qed.
  Definition slot_of (l : list nat) : option (option (nat * option nat)) :=
    match l with
    | [] => None
    | [x] => if itype_eqb (n_type (hget h x)) SECTION then Some (Some (x, None)) else Some None
    | _ => Some None
    end.
  Lemma text_eqb_refl' k : text_eqb k k = true. Proof. now apply text_eqb_eq. Qed.
  Lemma text_eqb_neq k k' : k <> k' -> text_eqb k k' = false.
  Proof. intro H. destruct (text_eqb k k') eqn:E; [|reflexivity]. now apply text_eqb_eq in E. Qed.

  Lemma merge_sections_slots els : forall k, assoc k (merge_sections h els) = slot_of (named k els).
  Proof.
    unfold merge_sections. induction els as [|e els IH] using rev_ind; intro k; [reflexivity|].
    rewrite fold_left_app, named_app. cbn [fold_left]. cbv zeta. set (mm := fold_left _ els []) in *. clearbody mm.
    destruct (list_eq_dec N.eq_dec (key_of h e) k) as [<-|Hk].
    - unfold named at 2. cbn [filter]. rewrite text_eqb_refl'. rewrite IH.
      destruct (named (key_of h e) els) as [|x [|y l]] eqn:El; cbn [slot_of app opt_is].
      + destruct (itype_eqb (n_type (hget h e)) SECTION); cbn [negb orb]; rewrite assoc_upd_eq, IH, El; reflexivity.
      + replace (negb _ || _) with true by (destruct (itype_eqb (n_type (hget h x)) SECTION), (itype_eqb (n_type (hget h e)) SECTION); reflexivity).
        rewrite assoc_upd_eq, IH, El. cbn [slot_of]. destruct (itype_eqb (n_type (hget h x)) SECTION); reflexivity.
      + replace (negb _ || _) with true by (destruct (itype_eqb (n_type (hget h e)) SECTION); reflexivity).
        rewrite assoc_upd_eq, IH, El. reflexivity.
    - unfold named at 2. cbn [filter]. rewrite text_eqb_neq by congruence. rewrite app_nil_r.
      destruct (_ || _); rewrite assoc_upd_neq by assumption; apply IH.
  Qed.

  Definition slot_with (l : list nat) (o : option (option (nat * option nat))) : option (option (nat * option nat)) :=
    match o with
    | Some (Some (s, None)) =>
        match l with
        | [] => o
        | [x] => if itype_eqb (n_type (hget h x)) SECTION then Some (Some (s, Some x)) else Some None
        | _ => Some None
        end
    | _ => o
    end.
  Lemma merge_templates_slots mm0 els : (forall k s t, assoc k mm0 = Some (Some (s, t)) -> t = None) ->
    forall k, assoc k (merge_templates h els mm0) = slot_with (named k els) (assoc k mm0).
  Proof.
    intro H0. unfold merge_templates. induction els as [|e els IH] using rev_ind; intro k.
    - cbn. unfold slot_with. destruct (assoc k mm0) as [[[s [t|]]|]|] eqn:E; try reflexivity.
    - rewrite fold_left_app, named_app. cbn [fold_left]. cbv zeta. set (mm := fold_left _ els mm0) in *. clearbody mm.
      destruct (list_eq_dec N.eq_dec (key_of h e) k) as [<-|Hk].
      + unfold named at 2. cbn [filter]. rewrite text_eqb_refl'. rewrite IH.
        destruct (assoc (key_of h e) mm0) as [[[s [t|]]|]|] eqn:E0; cbn [slot_with]; rewrite ?IH, ?E0; try reflexivity.
        { apply H0 in E0. discriminate. }
        destruct (named (key_of h e) els) as [|x [|y l]] eqn:El; cbn [app].
        * destruct (itype_eqb (n_type (hget h e)) SECTION); cbn [negb orb opt_is]; rewrite assoc_upd_eq, IH, E0, El; reflexivity.
        * destruct (itype_eqb (n_type (hget h x)) SECTION) eqn:Ex.
          -- replace (negb _ || _) with true by (destruct (itype_eqb (n_type (hget h e)) SECTION); reflexivity).
             rewrite assoc_upd_eq, IH, E0, El. cbn [slot_with]. rewrite Ex. reflexivity.
          -- rewrite IH, E0, El. cbn [slot_with]. rewrite Ex. reflexivity.
        * rewrite IH, E0, El. reflexivity.
      + unfold named at 2. cbn [filter]. rewrite text_eqb_neq by congruence. rewrite app_nil_r.
        destruct (assoc (key_of h e) mm) as [[[s t]|]|]; try apply IH. destruct (_ || _); rewrite assoc_upd_neq by assumption; apply IH.
  Qed.

  Lemma upd_nodup {A} k (f : A -> A) v l : NoDup (map fst l) -> NoDup (map fst (assoc_upd k f v l)).
  Proof.
    intro H. rewrite assoc_upd_fst. destruct (assoc k l) as [w|] eqn:E; cbn [opt_is]; [assumption|].
    apply NoDup_snoc; [assumption|]. now apply assoc_none.
  Qed.
  Lemma merge_sections_nodup els : NoDup (map fst (merge_sections h els)).
  Proof.
    unfold merge_sections. induction els as [|e els IH] using rev_ind; [constructor|]. rewrite fold_left_app. cbn [fold_left]. cbv zeta.
    destruct (_ || _); now apply upd_nodup.
  Qed.
  Lemma merge_templates_nodup els mm0 : NoDup (map fst mm0) -> NoDup (map fst (merge_templates h els mm0)).
  Proof.
    intro H. unfold merge_templates. induction els as [|e els IH] using rev_ind; [exact H|]. rewrite fold_left_app. cbn [fold_left]. cbv zeta.
    destruct (assoc _ _) as [[[s t]|]|]; try exact IH. destruct (_ || _); now apply upd_nodup.
  Qed.

  Lemma mergers_iff els tels a b : In (a, b) (mergers (merge_templates h tels (merge_sections h els))) <->
    exists k, named k els = [a] /\ named k tels = [b] /\ n_type (hget h a) = SECTION /\ n_type (hget h b) = SECTION.
  Proof.
    set (mm := merge_templates h tels (merge_sections h els)).
    assert (NoDup (map fst mm)) as Hnd by (apply merge_templates_nodup, merge_sections_nodup).
    assert (forall k, assoc k mm = slot_with (named k tels) (slot_of (named k els))) as Hmm.
    { intro k. unfold mm. rewrite merge_templates_slots; [now rewrite merge_sections_slots|].
      intros k' s t. rewrite merge_sections_slots. unfold slot_of. destruct (named k' els) as [|x [|y l]]; try discriminate.
      destruct (itype_eqb _ _); [|discriminate]. now intros [= _ <-]. }
    assert (In (a, b) (mergers mm) <-> exists k, assoc k mm = Some (Some (a, Some b))) as ->.
    { unfold mergers. rewrite in_flat_map. split.
      - intros ([k v] & Hin & Hp). cbn [snd] in Hp. destruct v as [[s [t|]]|]; cbn in Hp; try contradiction.
        destruct Hp as [[= -> ->]|[]]. exists k. now apply in_assoc.
      - intros (k & Hk). exists (k, Some (a, Some b)). split; [now apply assoc_in|]. now left. }
    split; intros (k & Hk); exists k.
    - rewrite Hmm in Hk. unfold slot_of in Hk. destruct (named k els) as [|x [|y l]]; cbn [slot_with] in Hk; try discriminate.
      destruct (itype_eqb (n_type (hget h x)) SECTION) eqn:Ex; cbn [slot_with] in Hk; [|discriminate].
      destruct (named k tels) as [|z [|w l]]; try discriminate. destruct (itype_eqb (n_type (hget h z)) SECTION) eqn:Ez; [|discriminate].
      injection Hk as -> ->. apply itype_eqb_eq in Ex, Ez. auto.
    - destruct Hk as (E1 & E2 & E3 & E4). rewrite Hmm, E1, E2. cbn [slot_of]. rewrite E3. cbn. rewrite E4. reflexivity.
  Qed.

  Lemma named_one k l a : named k l = [a] <->
    exists l1 l2, l = l1 ++ a :: l2 /\ key_of h a = k /\ forall x, In x (l1 ++ l2) -> key_of h x <> k.
  Proof.
    assert (forall l', named k l' = [] <-> forall x, In x l' -> key_of h x <> k) as Hn.
    { intro l'. induction l' as [|x l' IH]; cbn; [split; [intros _ ? []|reflexivity]|]. destruct (text_eqb k (key_of h x)) eqn:E.
      - apply text_eqb_eq in E. split; [discriminate|]. intro H. exfalso. apply (H x); [now left|congruence].
      - fold (named k l'). rewrite IH. split; [|intros H y Hy; apply H; now right]. intros H y [<-|Hy]; [|auto].
        intros <-. rewrite text_eqb_refl' in E. discriminate. }
    split.
    - induction l as [|x l IH]; cbn; [discriminate|]. destruct (text_eqb k (key_of h x)) eqn:E; fold (named k l).
      + intros [= -> H]. exists [], l. apply text_eqb_eq in E. split; [reflexivity|]. split; [congruence|]. cbn. now apply Hn.
      + intro H. destruct (IH H) as (l1 & l2 & -> & H1 & H2). exists (x :: l1), l2. split; [reflexivity|]. split; [assumption|].
        intros y [<-|Hy]; [|auto]. intros <-. rewrite text_eqb_refl' in E. discriminate.
    - intros (l1 & l2 & -> & H1 & H2). rewrite named_app. replace (named k l1) with (@nil nat).
      2:{ symmetry. apply Hn. intros. apply H2. apply in_or_app. now left. }
      cbn. fold (named k l2). rewrite <- H1, text_eqb_refl'. f_equal. rewrite H1. apply Hn. intros. apply H2. apply in_or_app. now right.
  Qed.
End Mergers.

Section Merge.
  Context (h0 : heap) (cs cn : list (text * list nat)) (HA : Analysed h0 cs cn).
  Notation sec := (sec h0).
  Notation els i := (n_elements (hget h0 i)).

  Lemma elem_key p i : p < length h0 -> In i (els p) -> n_key (hget h0 i) = Some (key_of h0 i).
  Proof.
    intros Hp Hi. destruct (children_lt h0 cs cn HA p i Hp Hi) as (H1 & H2 & _ & H4). unfold key_of.
    destruct (an_key _ _ _ HA i ltac:(lia)) as [H|H].
    - destruct H4; congruence.
    - destruct (n_key (hget h0 i)); congruence.
  Qed.
  Lemma sec_kind i : sec i <-> i < length h0 /\ is_section (hget h0 i).
  Proof. unfold ResolverLinks.sec. now rewrite (kind_cls true). Qed.

  Lemma sole_named h p i : same_text h0 h -> p < length h0 ->
    (sole h0 p i <-> named h (key_of h0 i) (els p) = [i] /\ n_type (hget h i) = SECTION).
  Proof.
    intros [T1 T2] Hp. assert (forall x, key_of h x = key_of h0 x) as Ek.
    { intro x. unfold key_of. specialize (T2 x). unfold text_part in T2. now replace (n_key (hget h x)) with (n_key (hget h0 x)) by congruence. }
    assert (n_type (hget h i) = SECTION <-> is_section (hget h0 i)) as Es.
    { rewrite <- itype_eqb_eq, type_sec, (text_cls _ _ (T2 i)). symmetry. exact (kind_cls true (hget h0 i)). }
    rewrite named_one, Es. split.
    - intros (l1 & l2 & E & Hs & Hn). split; [|assumption]. exists l1, l2. split; [assumption|]. split; [apply Ek|].
      intros x Hx. rewrite Ek. intro K. apply (Hn x Hx). rewrite (elem_key p x), (elem_key p i) by (try assumption; rewrite E; apply in_or_app; cbn; apply in_app_or in Hx; tauto). now f_equal.
    - intros [(l1 & l2 & E & _ & Hn) Hs]. exists l1, l2. split; [assumption|]. split; [assumption|].
      intros x Hx K. apply (Hn x Hx). rewrite Ek. unfold key_of. now rewrite K.
  Qed.
  Lemma sole_child p i : p < length h0 -> sole h0 p i -> sec i /\ n_parent (hget h0 i) = Some p /\ p < i.
  Proof.
    intros Hp (l1 & l2 & E & Hs & _). destruct (children_lt h0 cs cn HA p i Hp) as (H1 & H2 & H3 & _); [rewrite E; apply in_or_app; right; now left|].
    split; [now apply sec_kind|auto].
  Qed.
  Lemma sole_key p i j : p < length h0 -> sole h0 p i -> sole h0 p j -> n_key (hget h0 i) = n_key (hget h0 j) -> i = j.
  Proof.
    intros Hp (l1 & l2 & E & _ & Hn) (l1' & l2' & E' & _) K.
    assert (In j (l1 ++ i :: l2)) as Hj by (rewrite <- E, E'; apply in_or_app; right; now left).
    apply in_app_or in Hj as [Hj|[->|Hj]]; [|reflexivity|]; exfalso; apply (Hn j); try congruence; apply in_or_app; auto.
  Qed.

  Lemma mergers_partner h s t a b : same_text h0 h -> s < length h0 -> t < length h0 ->
    (In (a, b) (mergers (merge_templates h (els t) (merge_sections h (els s)))) <-> partner h0 s t a b).
  Proof.
    intros HT Hs Ht. rewrite mergers_iff. pose proof HT as [_ T2].
    assert (forall x, key_of h x = key_of h0 x) as Ek.
    { intro x. unfold key_of. specialize (T2 x). unfold text_part in T2. now replace (n_key (hget h x)) with (n_key (hget h0 x)) by congruence. }
    unfold partner. rewrite (sole_named h s a HT Hs), (sole_named h t b HT Ht). split.
    - intros (k & E1 & E2 & E3 & E4). assert (key_of h0 a = k /\ In a (els s)) as [Ka Ia].
      { apply named_one in E1 as (l1 & l2 & E & K & _). rewrite Ek in K. split; [assumption|]. rewrite E. apply in_or_app. right. now left. }
      assert (key_of h0 b = k /\ In b (els t)) as [Kb Ib].
      { apply named_one in E2 as (l1 & l2 & E & K & _). rewrite Ek in K. split; [assumption|]. rewrite E. apply in_or_app. right. now left. }
      rewrite Ka, Kb. split; [auto|]. split; [auto|]. rewrite (elem_key s a), (elem_key t b) by assumption. congruence.
    - intros ([E1 E2] & [E3 E4] & K). exists (key_of h0 a). assert (key_of h0 a = key_of h0 b) as Kab by (unfold key_of; now rewrite K).
      split; [assumption|]. split; [now rewrite Kab|]. auto.
  Qed.

  (** * Shape of the pairs *)
  Lemma partner_fun s t a b b' : t < length h0 -> partner h0 s t a b -> partner h0 s t a b' -> b = b'.
  Proof. intros Ht (_ & H1 & K1) (_ & H2 & K2). apply (sole_key t); try assumption. congruence. Qed.
  Lemma pairs_in s t i j : s < length h0 -> t < length h0 -> pairs h0 s t i j ->
    (i = s \/ above h0 s i) /\ (j = t \/ above h0 t j) /\ (sec s -> sec i) /\ (sec t -> sec j).
  Proof.
    intros Hs Ht H. revert Hs Ht. induction H as [s t|s t a b i j (Ha & Hb & K) H IH]; intros Hs Ht; [auto|].
    destruct (sole_child s a Hs Ha) as (Sa & Pa & La). destruct (sole_child t b Ht Hb) as (Sb & Pb & Lb).
    destruct (IH (proj1 Sa) (proj1 Sb)) as (H1 & H2 & H3 & H4). split; [|split; [|split; auto]].
    - right. destruct H1 as [->|H1]; [now apply above_parent|]. apply (above_trans h0 s a i); [now apply above_parent|assumption].
    - right. destruct H2 as [->|H2]; [now apply above_parent|]. apply (above_trans h0 t b j); [now apply above_parent|assumption].
  Qed.
  Lemma siblings s a a' i : s < length h0 -> i < length h0 -> n_parent (hget h0 a) = Some s -> n_parent (hget h0 a') = Some s ->
    i = a \/ above h0 a i -> i = a' \/ above h0 a' i -> a = a'.
  Proof.
    intros Hs Hi Pa Pa' H H'. pose proof (an_s _ _ _ HA) as HS.
    assert (forall x y, n_parent (hget h0 x) = Some s -> n_parent (hget h0 y) = Some s -> ~ above h0 x y) as Hn.
    { intros x y Px Py Hxy. rewrite (above_inv _ _ _ _ Py) in Hxy.
      assert (above h0 s x) as Hsx by now apply above_parent.
      assert (above h0 s s) as Hss by (destruct Hxy as [->|Hxy]; [assumption|eapply above_trans; eassumption]).
      apply (above_lt _ _ _ HS Hs) in Hss. lia. }
    destruct H as [->|H], H' as [E|H'].
    - assumption.
    - exfalso. now apply (Hn a' a).
    - subst i. exfalso. now apply (Hn a a').
    - destruct (above_linear h0 a a' i H H') as [->|[E|E]]; [reflexivity|exfalso; now apply (Hn a a')|exfalso; now apply (Hn a' a)].
  Qed.
  Lemma pairs_fun s t i j j' : s < length h0 -> t < length h0 -> pairs h0 s t i j -> pairs h0 s t i j' -> j = j'.
  Proof.
    intros Hs Ht H. revert Hs Ht j'. pose proof (an_s _ _ _ HA) as HS.
    assert (forall s t a b j', s < length h0 -> t < length h0 -> partner h0 s t a b -> pairs h0 a b s j' -> False) as Hno.
    { intros s' t' a b j' Hs Ht (Ha & Hb & K) H'. destruct (sole_child s' a Hs Ha) as (Sa & Pa & La). destruct (sole_child t' b Ht Hb) as (Sb & Pb & Lb).
      destruct (pairs_in a b s' j' (proj1 Sa) (proj1 Sb) H') as ([->|Ab] & _); [lia|]. apply (above_lt _ _ _ HS Hs) in Ab. lia. }
    induction H as [s t|s t a b i j Hp H IH]; intros Hs Ht j' H'; inversion H' as [|? ? a' b' ? ? Hp' Hin]; subst.
    - reflexivity.
    - exfalso. eapply (Hno s t); eassumption.
    - exfalso. eapply (Hno i j'); eassumption.
    - destruct (sole_child s a Hs (proj1 Hp)) as (Sa & Pa & La). destruct (sole_child t b Ht (proj1 (proj2 Hp))) as (Sb & Pb & Lb).
      destruct (sole_child s a' Hs (proj1 Hp')) as (Sa' & Pa' & La'). destruct (sole_child t b' Ht (proj1 (proj2 Hp'))) as (Sb' & Pb' & Lb').
      destruct (pairs_in _ _ _ _ (proj1 Sa) (proj1 Sb) H) as (I1 & _ & I3 & _). destruct (pairs_in _ _ _ _ (proj1 Sa') (proj1 Sb') Hin) as (I1' & _).
      assert (a = a') as <- by (apply (siblings s a a' i); auto; apply I3; assumption).
      assert (b = b') as <- by (eapply partner_fun; eassumption). apply IH; [apply Sa|apply Sb|assumption].
  Qed.

  Lemma pairs_not_up s t a b j : s < length h0 -> t < length h0 -> partner h0 s t a b -> ~ pairs h0 a b s j.
  Proof.
    intros Hs Ht (Ha & Hb & K) H'. destruct (sole_child s a Hs Ha) as (Sa & Pa & La). destruct (sole_child t b Ht Hb) as (Sb & Pb & Lb).
    destruct (pairs_in a b s j (proj1 Sa) (proj1 Sb) H') as ([->|Ab] & _); [lia|]. apply (above_lt _ _ _ (an_s _ _ _ HA) Hs) in Ab. lia.
  Qed.
  Lemma pairs_empty s t i j : els s = [] -> pairs h0 s t i j -> i = s /\ j = t.
  Proof.
    intros E H. inversion H as [|? ? a b ? ? ((l1 & l2 & E' & _) & _) _]; subst; [auto|]. rewrite E in E'. now destruct l1.
  Qed.

  (** * One consolidation *)
  Definition ov (deep : bool) (s t i j : nat) : Prop := if deep then pairs h0 s t i j else i = s /\ j = t.
  Definition dest (h : heap) (j : nat) : nat := match n_mirror (hget h j) with Some m => m | None => j end.
  Definition links_kept (h h' : heap) (i : nat) : Prop := n_mirror (hget h' i) = n_mirror (hget h i) /\ n_extend (hget h' i) = n_extend (hget h i).
  Definition linked (T : nat -> Prop) (h h' : heap) (i j : nat) : Prop :=
    (els i <> [] -> n_extend (hget h' i) = Some j /\ n_mirror (hget h' i) = n_mirror (hget h i)) /\
    (els i = [] -> n_extend (hget h' i) = n_extend (hget h i) /\ (els j <> [] \/ ~ T j -> n_mirror (hget h' i) = Some (dest h j))).
  (** sections with elements of their own do not mirror others *)
  Definition pure (h : heap) : Prop := forall i, sec i -> els i <> [] -> n_mirror (hget h i) = None.

  Lemma kept_dest h h' j : links_kept h h' j -> dest h' j = dest h j.
  Proof. intros [E _]. unfold dest. now rewrite E. Qed.
  Lemma pure_dest h h' j : pure h -> pure h' -> sec j -> els j <> [] -> dest h' j = dest h j.
  Proof. intros H H' Hj He. unfold dest. now rewrite (H j Hj He), (H' j Hj He). Qed.
  Lemma linked_weaken (T T' : nat -> Prop) h h' i j : (forall x, T' x -> T x) -> linked T' h h' i j -> linked T h h' i j.
  Proof. intros HT [H1 H2]. split; [assumption|]. intro E. destruct (H2 E) as [H3 H4]. split; [assumption|]. intros [H|H]; apply H4; auto. Qed.
  Lemma linked_before T h1 h2 h3 i j : links_kept h1 h2 i -> (els j <> [] \/ ~ T j -> dest h2 j = dest h1 j) -> linked T h2 h3 i j -> linked T h1 h3 i j.
  Proof.
    intros [E1 E2] Hd [H1 H2]. split.
    - intro E. destruct (H1 E). split; congruence.
    - intro E. destruct (H2 E) as [H3 H4]. split; [congruence|]. intro H. rewrite <- Hd by assumption. auto.
  Qed.
  Lemma linked_after T h1 h2 h3 i j : links_kept h2 h3 i -> linked T h1 h2 i j -> linked T h1 h3 i j.
  Proof.
    intros [E1 E2] [H1 H2]. split.
    - intro E. destruct (H1 E). split; congruence.
    - intro E. destruct (H2 E) as [H3 H4]. split; [congruence|]. intro H. rewrite E1. auto.
  Qed.
  Lemma linked_twice T h1 h2 h3 i j : (els j <> [] \/ ~ T j -> dest h2 j = dest h1 j) -> linked T h1 h2 i j -> linked T h2 h3 i j -> linked T h1 h3 i j.
  Proof.
    intros Hd [H1 H2] [H3 H4]. split.
    - intro E. destruct (H1 E), (H3 E). split; congruence.
    - intro E. destruct (H2 E) as [G1 G2], (H4 E) as [G3 G4]. split; [congruence|]. intro H. rewrite <- Hd by assumption. auto.
  Qed.

  Lemma inherit_kept h s t i : links_kept h (inherit_comments h s t) i.
  Proof.
    unfold inherit_comments. destruct (n_comments (hget h t)); [|split; reflexivity]. destruct (n_comments (hget h s)); [split; reflexivity|].
    destruct (hupd_cases h s (set_comments (Some l)) i) as [E|[-> E]]; split; rewrite E; reflexivity.
  Qed.
  Lemma text_upd h e f : same_text h0 h -> (forall n, text_part (f n) = text_part n) -> same_text h0 (hupd h e f).
  Proof.
    intros [H1 H2] Hf. split; [now rewrite hupd_length|]. intro i. destruct (hupd_cases h e f i) as [->|[-> ->]]; [apply H2|]. rewrite Hf. apply H2.
  Qed.
  Lemma inherit_same h s t : same_text h0 h -> same_text h0 (inherit_comments h s t).
  Proof.
    intro H. unfold inherit_comments. destruct (n_comments (hget h t)); [|assumption]. destruct (n_comments (hget h s)); [assumption|]. now apply text_upd.
  Qed.

  Lemma consolidate_links fuel : forall h s t deep h', same_text h0 h -> pure h -> sec s -> sec t -> s <> t ->
    consolidate_sections fuel h s t deep = Some h' ->
    same_text h0 h' /\ pure h' /\
    forall i, (exists j, ov deep s t i j /\ linked (fun x => exists y, ov deep s t x y) h h' i j) \/
              (forall j, ~ ov deep s t i j) /\ links_kept h h' i.
  Proof.
    induction fuel as [|f IH]; intros h s t deep h' HT HP Hs Ht Hne; cbn [consolidate_sections]; [discriminate|].
    pose proof (inherit_same h s t HT) as HT1. pose proof (inherit_kept h s t) as HK1. set (h1 := inherit_comments h s t) in *. clearbody h1.
    assert (pure h1) as HP1 by (intros i Hi E; rewrite (proj1 (HK1 i)); now apply HP).
    assert (n_elements (hget h1 s) = els s) as Es by (apply text_elements; apply HT1).
    assert (s < length h1) as Hl1 by (rewrite (proj1 HT1); apply Hs).
    rewrite Es. destruct (els s) as [|x0 l0] eqn:Eel.
    - unfold mirror. assert (forall d, d = dest h1 t -> Some (hupd h1 s (set_mirror (Some d))) = Some h' -> same_text h0 h' /\ pure h' /\
        forall i, (exists j, ov deep s t i j /\ linked (fun x => exists y, ov deep s t x y) h h' i j) \/
              (forall j, ~ ov deep s t i j) /\ links_kept h h' i) as G.
      { intros d Hd [= <-]. split; [now apply text_upd|]. split.
        - intros i Hi E. rewrite hget_set_neq by congruence. now apply HP1.
        - intro i. destruct (Nat.eq_dec i s) as [->|Hi].
          + left. exists t. split; [unfold ov; destruct deep; [constructor|auto]|]. split; [congruence|]. intros _.
            rewrite hget_hupd by assumption. cbn. split; [apply HK1|]. intros _. rewrite Hd. f_equal. apply kept_dest, HK1.
          + right. split; [|unfold links_kept; rewrite hget_set_neq by congruence; apply HK1].
            intros j Hj. unfold ov in Hj. destruct deep; [apply pairs_empty in Hj; [|assumption]|]; now destruct Hj. }
      destruct (n_mirror (hget h1 t)) as [m|] eqn:Em; apply G; unfold dest; now rewrite Em.
    - rewrite <- Eel. assert (els s <> []) as Hes by congruence. clear x0 l0 Eel Es.
      assert (same_text h0 (hupd h1 s (set_extend (Some t)))) as HT2 by now apply text_upd.
      assert (hget (hupd h1 s (set_extend (Some t))) s = set_extend (Some t) (hget h1 s)) as G2 by now apply hget_hupd.
      assert (forall i, i <> s -> hget (hupd h1 s (set_extend (Some t))) i = hget h1 i) as N2 by (intros; apply hget_set_neq; congruence).
      set (h2 := hupd h1 s (set_extend (Some t))) in *. clearbody h2.
      assert (forall i, n_mirror (hget h2 i) = n_mirror (hget h i)) as M2.
      { intro i. destruct (Nat.eq_dec i s) as [->|Hi]; [rewrite G2; apply HK1|rewrite N2 by assumption; apply HK1]. }
      assert (pure h2) as HP2 by (intros i Hi E; rewrite M2; now apply HP).
      assert (forall i, dest h2 i = dest h i) as D2 by (intro i; unfold dest; now rewrite M2).
      assert (forall i, i <> s -> links_kept h h2 i) as K2 by (intros i Hi; unfold links_kept; rewrite N2 by assumption; apply HK1).
      assert (forall T, linked T h h2 s t) as L2.
      { intro T. split; [|congruence]. intros _. split; [now rewrite G2|apply M2]. }
      destruct deep; cbn [negb].
      2:{ intros [= <-]. split; [assumption|]. split; [assumption|]. intro i. destruct (Nat.eq_dec i s) as [->|Hi].
          - left. exists t. split; [now split|apply L2].
          - right. split; [|now apply K2]. intros j [E _]. contradiction. }
      rewrite (text_elements _ _ (proj2 HT2 t)).
      set (T := fun x => exists y, ov true s t x y).
      assert (forall l h2 h', (forall a b, In (a, b) l -> partner h0 s t a b) -> same_text h0 h2 -> pure h2 ->
        fold_left (fun acc st => match acc with Some h' => consolidate_sections f h' (fst st) (snd st) true | None => None end) l (Some h2) = Some h' ->
        same_text h0 h' /\ pure h' /\
        forall i, (exists a b j, In (a, b) l /\ pairs h0 a b i j /\ linked T h2 h' i j) \/
                  (forall a b j, In (a, b) l -> ~ pairs h0 a b i j) /\ links_kept h2 h' i) as Fold.
      { clear h h' HT HP h1 HT1 HK1 HP1 Hl1 h2 HT2 G2 N2 M2 HP2 D2 K2 L2.
        induction l as [|[a b] l IHl]; intros h2 h' Hl HT2 HP2; cbn [fold_left fst snd].
        - intros [= <-]. split; [assumption|]. split; [assumption|]. intro i. right. split; [intros ? ? ? []|split; reflexivity].
        - pose proof (Hl a b ltac:(now left)) as Hab. pose proof Hab as (Ha & Hb & _).
          destruct (sole_child s a (proj1 Hs) Ha) as (Sa & Pa & La). destruct (sole_child t b (proj1 Ht) Hb) as (Sb & Pb & Lb).
          destruct (consolidate_sections f h2 a b true) as [h3|] eqn:E3.
          2:{ intro E. exfalso. clear - E. induction l as [|x l IHl]; cbn [fold_left] in E; [discriminate|auto]. }
          intro E. apply IH in E3; try assumption; [|intros <-; congruence]. destruct E3 as (T3 & P3 & F3). cbn [ov] in F3.
          destruct (IHl h3 h' ltac:(intros; apply Hl; now right) T3 P3 E) as (T4 & P4 & F4).
          split; [assumption|]. split; [assumption|]. intro i.
          assert (forall j, sec j -> els j <> [] \/ ~ T j -> dest h3 j = dest h2 j) as Hd.
          { intros j Sj [Hj|Hj]; [now apply pure_dest|]. destruct (F3 j) as [(y & Hy & _)|[_ Hk]]; [|now apply kept_dest].
            exfalso. apply Hj. exists y. cbn. eapply pa_inner; eassumption. }
          assert (forall j, linked (fun x => exists y, pairs h0 a b x y) h2 h3 i j -> linked T h2 h3 i j) as Hw.
          { intro j. apply linked_weaken. intros x (y & Hy). exists y. cbn. eapply pa_inner; eassumption. }
          destruct (F3 i) as [(j & Hj & HL)|[Hn HK]]; destruct (F4 i) as [(a' & b' & j' & Hin & Hj' & HL')|[Hn' HK']].
          + left. pose proof (Hl a' b' ltac:(now right)) as Hab'. pose proof Hab' as (Ha' & Hb' & _).
            destruct (sole_child s a' (proj1 Hs) Ha') as (Sa' & Pa' & La'). destruct (sole_child t b' (proj1 Ht) Hb') as (Sb' & Pb' & Lb').
            destruct (pairs_in _ _ _ _ (proj1 Sa) (proj1 Sb) Hj) as (I1 & _ & I3 & I4). destruct (pairs_in _ _ _ _ (proj1 Sa') (proj1 Sb') Hj') as (I1' & _).
            assert (a = a') as <- by (apply (siblings s a a' i); auto; [apply Hs|apply I3; assumption]).
            assert (b = b') as <- by (eapply partner_fun; [apply Ht|eassumption..]).
            assert (j = j') as <- by (eapply pairs_fun; [apply Sa|apply Sb|eassumption..]).
            exists a, b, j. split; [now left|]. split; [assumption|]. eapply linked_twice; [apply Hd; auto|apply Hw; eassumption|assumption].
          + left. exists a, b, j. split; [now left|]. split; [assumption|]. eapply linked_after; [eassumption|auto].
          + left. exists a', b', j'. split; [now right|]. split; [assumption|]. pose proof (Hl a' b' ltac:(now right)) as (Ha' & Hb' & _).
            destruct (sole_child s a' (proj1 Hs) Ha') as (Sa' & Pa' & La'). destruct (sole_child t b' (proj1 Ht) Hb') as (Sb' & Pb' & Lb').
            destruct (pairs_in _ _ _ _ (proj1 Sa') (proj1 Sb') Hj') as (_ & _ & _ & I4).
            eapply linked_before; [eassumption|apply Hd; auto|assumption].
          + right. split.
            * intros a' b' j [[= <- <-]|Hin]; [apply Hn|now apply Hn'].
            * destruct HK, HK'. split; congruence. }
      intro E. apply Fold in E; try assumption.
      2:{ intros a b Hab. apply (mergers_partner h2 s t a b HT2 (proj1 Hs) (proj1 Ht)) in Hab. assumption. }
      destruct E as (T4 & P4 & F4). split; [assumption|]. split; [assumption|]. intro i. cbn [ov].
      destruct (Nat.eq_dec i s) as [->|Hi].
      + left. exists t. split; [constructor|]. destruct (F4 s) as [(a & b & j & Hin & Hj & _)|[_ HK]].
        * exfalso. apply (mergers_partner h2 s t a b HT2 (proj1 Hs) (proj1 Ht)) in Hin. apply (pairs_not_up s t a b j) in Hin; try apply Hs; try apply Ht. contradiction.
        * eapply linked_after; [eassumption|apply L2].
      + destruct (F4 i) as [(a & b & j & Hin & Hj & HL)|[Hn HK]].
        * left. exists j. apply (mergers_partner h2 s t a b HT2 (proj1 Hs) (proj1 Ht)) in Hin. split; [eapply pa_inner; eassumption|].
          eapply linked_before; [apply K2; assumption|intros _; apply D2|exact HL].
        * right. split.
          -- intros j Hj. inversion Hj as [|? ? a b ? ? Hp Hin]; subst; [contradiction|].
             apply (Hn a b j); [|assumption]. now apply (mergers_partner h2 s t a b HT2 (proj1 Hs) (proj1 Ht)).
          -- destruct HK, (K2 i Hi). split; congruence.
  Qed.

  (** * The invariant *)
  Notation gives := (gives h0).
  Definition copier (i : nat) : Prop := sec i /\ n_template (hget h0 i) <> None.
  Definition clear_below (h : heap) (a : nat) : Prop := forall c, copier c -> above h0 a c -> n_copy (hget h c) = false.

  Lemma comparable a b i : i = a \/ above h0 a i -> i = b \/ above h0 b i -> a = b \/ above h0 a b \/ above h0 b a.
  Proof. intros [->|H] [E|H']; auto; [subst i; auto|]. now apply (above_linear h0 a b i). Qed.
  Lemma gives_in a u i j : gives a u i j -> copier a /\ sec u /\ (i = a \/ above h0 a i) /\ (j = u \/ above h0 u j) /\ sec i /\ sec j.
  Proof.
    intros [Ht H]. destruct (template_lt _ _ _ _ Ht) as [La Lu]. pose proof (template_copies _ _ _ _ Ht) as Hn.
    assert (sec a /\ sec u) as [Sa Su] by (destruct Ht as (k & (_ & K & _) & (_ & K' & _) & _); split; now apply sec_kind).
    split; [now split|]. split; [assumption|]. destruct (n_deep_copy (hget h0 a)).
    - destruct (pairs_in a u i j La Lu H) as (H1 & H2 & H3 & H4). auto.
    - destruct H as [-> ->]. auto.
  Qed.
  Lemma gives_fun a u i j u' j' : gives a u i j -> gives a u' i j' -> u = u' /\ j = j'.
  Proof.
    intros [Ht H] [Ht' H']. pose proof (template_fun h0 true a u u' Ht Ht') as <-. split; [reflexivity|]. destruct (template_lt _ _ _ _ Ht) as [La Lu].
    destruct (n_deep_copy (hget h0 a)); [now apply (pairs_fun a u i)|]. destruct H, H'; congruence.
  Qed.

  (** no copy that has been resolved around [a] gives [i] anything *)
  Definition outermost (h : heap) (a i : nat) : Prop := forall a' u j, above h0 a' a -> gives a' u i j -> n_copy (hget h a') = true.
  Definition calm (a u j : nat) : Prop := els j <> [] \/ (forall a' u' j', above h0 a' u -> ~ gives a' u' j j') \/
    forall a1 u1 j1 a2 u2 j2, gives a1 u1 j j1 -> gives a2 u2 j j2 -> a1 = a2 /\ a1 <> a.

  Record MInv (h : heap) : Prop := {
    mi_text : same_text h0 h;
    mi_pure : pure h;
    mi_empty : forall i, sec i -> els i = [] -> n_extend (hget h i) = None;
    mi_none : forall i, sec i -> (forall a u j, gives a u i j -> n_copy (hget h a) = true) -> n_mirror (hget h i) = None /\ n_extend (hget h i) = None;
    mi_extend : forall a u i j, gives a u i j -> n_copy (hget h a) = false -> outermost h a i -> els i <> [] -> n_extend (hget h i) = Some j;
    mi_mirror : forall a u i j, gives a u i j -> n_copy (hget h a) = false -> outermost h a i -> els i = [] -> calm a u j ->
      n_mirror (hget h i) = Some j \/ n_mirror (hget h i) = Some (dest h j);
    mi_who : forall i, sec i -> (forall a u j, gives a u i j -> n_copy (hget h a) = true) \/
      exists a u j, gives a u i j /\ n_copy (hget h a) = false /\ outermost h a i;
    mi_deep : forall a, sec a -> n_deep_resolve (hget h a) = false -> clear_below h a;
    mi_done : forall a u, template_is true h0 a u -> n_copy (hget h a) = false -> clear_below h a /\ clear_below h u /\ (copier u -> n_copy (hget h u) = false)
  }.

  Lemma step_consolidate h s t h3 : MInv h -> sec s -> template_is true h0 s t -> n_copy (hget h s) = true -> n_deep_resolve (hget h s) = false ->
    n_copy (hget h t) = false -> n_deep_resolve (hget h t) = false -> consolidate_sections (S (length h)) h s t (n_deep_copy (hget h s)) = Some h3 ->
    let h' := hupd h3 s (set_copy false) in
    MInv h' /\ n_copy (hget h' s) = false /\ (forall i, i <> s -> n_copy (hget h' i) = n_copy (hget h i)) /\
    forall i, n_deep_resolve (hget h' i) = n_deep_resolve (hget h i).
  Proof.
    intros HI Ss Ht Hcs Hds Hct Hdt HC h'. pose proof (mi_text h HI) as HT. pose proof (template_neq _ _ _ _ Ht) as Hne.
    assert (sec t) as St by (destruct Ht as (k & _ & (L & K & _) & _); now apply sec_kind).
    assert (copier s) as Cs by (split; [assumption|now apply template_copies in Ht]).
    assert (n_deep_copy (hget h s) = n_deep_copy (hget h0 s)) as Ed by (pose proof (proj2 HT s) as E; unfold text_part in E; congruence).
    rewrite Ed in HC.
    destruct (consolidate_sections_eq h0 cs cn HA (S (length h)) h s t (n_deep_copy (hget h0 s)) HT (proj1 Ss) Hne) as (h3' & E3 & (C1 & C2 & _) & _).
    { rewrite (proj1 HT). lia. }
    assert (h3' = h3) as -> by congruence. clear E3.
    destruct (consolidate_links _ h s t _ h3 HT (mi_pure h HI) Ss St Hne HC) as (T3 & P3 & F3).
    assert (forall i, links_kept h3 h' i) as K3.
    { intro i. unfold h', links_kept. destruct (hupd_cases h3 s (set_copy false) i) as [->|[-> ->]]; split; reflexivity. }
    assert (s < length h3) as Ls by (rewrite C1, (proj1 HT); apply Ss).
    assert (hget h' s = set_copy false (hget h3 s)) as Gs by now apply hget_hupd.
    assert (forall i, i <> s -> hget h' i = hget h3 i) as Gn by (intros; apply hget_set_neq; congruence).
    assert (n_copy (hget h' s) = false) as Hs' by now rewrite Gs.
    assert (forall i, i <> s -> n_copy (hget h' i) = n_copy (hget h i)) as Hi'.
    { intros i Hi. rewrite Gn by assumption. apply C2. }
    assert (forall i, n_deep_resolve (hget h' i) = n_deep_resolve (hget h i)) as Hd'.
    { intro i. destruct (C2 i) as (_ & _ & _ & <-). destruct (Nat.eq_dec i s) as [->|Hi]; [now rewrite Gs|now rewrite Gn]. }
    assert (forall i, n_copy (hget h' i) = true -> i <> s /\ n_copy (hget h i) = true) as Hun.
    { intros i Hi. destruct (Nat.eq_dec i s) as [->|H]; [congruence|]. split; [assumption|]. now rewrite <- Hi'. }
    assert (forall i, n_copy (hget h i) = false -> n_copy (hget h' i) = false) as Hmono.
    { intros i Hi. destruct (Nat.eq_dec i s) as [->|H]; [assumption|]. now rewrite Hi'. }
    assert (forall i j, ov (n_deep_copy (hget h0 s)) s t i j <-> gives s t i j) as Hov by (intros i j; unfold SpecMerge.gives; tauto).
    set (T := fun x => exists y, ov (n_deep_copy (hget h0 s)) s t x y) in *.
    assert (forall i, (exists j, gives s t i j /\ linked T h h' i j) \/ (forall u j, ~ gives s u i j) /\ links_kept h h' i) as F.
    { intro i. destruct (F3 i) as [(j & Hj & HL)|[Hn HK]].
      - left. exists j. split; [now apply Hov|]. eapply linked_after; [apply K3|assumption].
      - right. split.
        + intros u j Hg. pose proof (template_fun h0 true s t u Ht (proj1 Hg)) as <-. apply (Hn j). now apply Hov.
        + destruct HK, (K3 i). split; congruence. }
    assert (pure h') as P' by (intros i Hi E; rewrite (proj1 (K3 i)); now apply P3).
    (* a section that is not resolved is not inside one that is *)
    assert (forall a u, template_is true h0 a u -> n_copy (hget h a) = false -> ~ above h0 a s) as Hin.
    { intros a u Ha Hc Hab. rewrite (proj1 (mi_done h HI a u Ha Hc) s Cs Hab) in Hcs. discriminate. }
    assert (~ above h0 t s) as Hts by (intro Hab; rewrite (mi_deep h HI t St Hdt s Cs Hab) in Hcs; discriminate).
    (* which copy decides *)
    assert (forall a u i j, gives a u i j -> n_copy (hget h' a) = false -> outermost h' a i ->
      (a = s /\ u = t /\ linked T h h' i j) \/ (a <> s /\ n_copy (hget h a) = false /\ outermost h a i /\ links_kept h h' i)) as Hwho.
    { intros a u i j Hg Hc Ho. destruct (gives_in a u i j Hg) as (Ca & Su & Ia & Ju & Si & Sj). destruct (F i) as [(jj & Hgs & HL)|[Hn HK]].
      - left. destruct (gives_in s t i jj Hgs) as (_ & _ & Is & _). destruct (comparable a s i Ia Is) as [->|[Hab|Hab]].
        + destruct (gives_fun s u i j t jj Hg Hgs) as [-> ->]. auto.
        + exfalso. apply (Hin a u (proj1 Hg)); [|assumption]. rewrite <- Hi'; [assumption|]. intros ->. apply (above_lt _ _ _ (an_s _ _ _ HA) (proj1 Ss)) in Hab. lia.
        + exfalso. rewrite (Ho s t jj Hab Hgs) in Hs'. discriminate.
      - right. assert (a <> s) as Has by (intros ->; now apply (Hn u j)). split; [assumption|]. split; [now rewrite <- Hi'|]. split; [|assumption].
        intros a' u' j' Hab Hg'. apply Hun. now apply (Ho a' u' j'). }
    split; [|now repeat split]. constructor.
    - apply text_upd; [assumption|reflexivity].
    - assumption.
    - intros i Hi E. destruct (F i) as [(j & _ & [_ HL])|[_ [_ HK]]]; [destruct (HL E) as [HK _]|]; rewrite HK; now apply HI.
    - intros i Hi Hn. destruct (F i) as [(j & Hg & _)|[_ [HK1 HK2]]]; [rewrite (Hn s t j Hg) in Hs'; discriminate|]. rewrite HK1, HK2.
      apply (mi_none h HI); [assumption|]. intros a u j Hg. apply Hun. now apply (Hn a u j).
    - intros a u i j Hg Hc Ho He. destruct (Hwho a u i j Hg Hc Ho) as [(-> & -> & [HL _])|(Has & Hc0 & Ho0 & [_ HK])]; [now apply HL|].
      rewrite HK. now apply (mi_extend h HI a u).
    - intros a u i j Hg Hc Ho He Hcalm. destruct (gives_in a u i j Hg) as (Ca & Su & Ia & Ju & Si & Sj).
      assert (els j <> [] \/ ~ T j -> dest h' j = dest h j) as Hdest.
      { intros [Hj|Hj]; [apply pure_dest; auto; apply HI|]. apply kept_dest. destruct (F j) as [(y & Hy & _)|[_ HK]]; [|assumption].
        exfalso. apply Hj. exists y. now apply Hov. }
      assert (s = u \/ above h0 u s -> False) as Hus.
      { intros [E|E].
        - destruct (Hwho a u i j Hg Hc Ho) as [(-> & -> & _)|(Has & Hc0 & _)]; [congruence|]. subst u.
          destruct (mi_done h HI a s (proj1 Hg) Hc0) as (_ & _ & G). rewrite (G Cs) in Hcs. discriminate.
        - destruct (Hwho a u i j Hg Hc Ho) as [(-> & -> & _)|(Has & Hc0 & _)]; [contradiction|].
          destruct (mi_done h HI a u (proj1 Hg) Hc0) as (_ & G & _). rewrite (G s Cs E) in Hcs. discriminate. }
      destruct (Hwho a u i j Hg Hc Ho) as [(-> & -> & [_ HL])|(Has & Hc0 & Ho0 & [HK _])].
      + assert (els j <> [] \/ ~ T j) as Hcalm'.
        { destruct Hcalm as [Hj|[Hj|Hj]]; [now left| |]; right; intros (y & Hy); apply Hov in Hy; destruct (gives_in s t j y Hy) as (_ & _ & Js & _).
          - destruct (comparable s t j Js Ju) as [E|[E|E]]; [apply Hus; auto| |apply Hus; auto]. now apply (Hj s t y).
          - destruct (Hj s t y s t y Hy Hy). congruence. }
        right. rewrite (Hdest Hcalm'). destruct (HL He) as [_ HM]. now apply HM.
      + rewrite HK. pose proof (mi_mirror h HI a u i j Hg Hc0 Ho0 He Hcalm) as HM.
        destruct (F j) as [(y & Hy & _)|[_ Hk]]; [|now rewrite (kept_dest h h' j Hk)].
        destruct (gives_in s t j y Hy) as (_ & _ & Js & _). destruct Hcalm as [Hj|[Hj|Hj]].
        * now rewrite (Hdest (or_introl Hj)).
        * exfalso. destruct (comparable s u j Js Ju) as [E|[E|E]]; [apply Hus; auto| |apply Hus; auto]. now apply (Hj s t y).
        * left. assert (n_mirror (hget h j) = None) as Hm.
          { apply (mi_none h HI j Sj). intros a1 u1 j1 H1. destruct (Hj a1 u1 j1 s t y H1 Hy) as [-> _]. assumption. }
          unfold dest in HM. rewrite Hm in HM. tauto.
    - intros i Si. destruct (F i) as [(j & Hg & _)|[Hn _]].
      + right. exists s, t, j. split; [assumption|]. split; [assumption|]. intros a' u' j' Hab Hg'. destruct (n_copy (hget h' a')) eqn:E; [reflexivity|exfalso].
        apply (Hin a' u' (proj1 Hg')); [|assumption]. rewrite <- Hi'; [assumption|]. intros ->. apply (above_lt _ _ _ (an_s _ _ _ HA) (proj1 Ss)) in Hab. lia.
      + assert (forall a u j, gives a u i j -> n_copy (hget h' a) = n_copy (hget h a)) as Hsame.
        { intros a u j Hg. apply Hi'. intros ->. now apply (Hn u j). }
        destruct (mi_who h HI i Si) as [H|(a & u & j & H1 & H2 & H3)].
        * left. intros a u j Hg. rewrite (Hsame a u j Hg). now apply (H a u j).
        * right. exists a, u, j. split; [assumption|]. split; [now rewrite (Hsame a u j H1)|]. intros a' u' j' Hab Hg'. rewrite (Hsame a' u' j' Hg'). now apply (H3 a' u' j').
    - intros a Sa. rewrite Hd'. intros Hd c Cc Hab. apply Hmono. now apply (mi_deep h HI a).
    - intros a u Ha Hc. destruct (Nat.eq_dec a s) as [->|Has].
      + pose proof (template_fun h0 true s t u Ht Ha) as <-. split; [|split].
        * intros c Cc Hab. apply Hmono. now apply (mi_deep h HI s).
        * intros c Cc Hab. apply Hmono. now apply (mi_deep h HI t).
        * intros _. now apply Hmono.
      + rewrite Hi' in Hc by assumption. destruct (mi_done h HI a u Ha Hc) as (D1 & D2 & D3). split; [|split].
        * intros c Cc Hab. apply Hmono. now apply D1.
        * intros c Cc Hab. apply Hmono. now apply D2.
        * intro Cu. apply Hmono. now apply D3.
  Qed.

  Lemma step_clear h s : MInv h -> clear_below h s -> MInv (hupd h s (set_deep_resolve false)).
  Proof.
    intros HI Hs. set (h' := hupd h s (set_deep_resolve false)).
    assert (forall i, n_copy (hget h' i) = n_copy (hget h i) /\ n_mirror (hget h' i) = n_mirror (hget h i) /\ n_extend (hget h' i) = n_extend (hget h i)) as E.
    { intro i. unfold h'. destruct (hupd_cases h s (set_deep_resolve false) i) as [->|[-> ->]]; repeat split. }
    assert (forall a, clear_below h a -> clear_below h' a) as Hc by (intros a Ha c Cc Hab; rewrite (proj1 (E c)); now apply Ha).
    assert (forall j, dest h' j = dest h j) as Hdest by (intro j; unfold dest; now rewrite (proj1 (proj2 (E j)))).
    assert (forall a i, outermost h' a i -> outermost h a i) as Ho by (intros a i H a' u j Hab Hg; rewrite <- (proj1 (E a')); now apply (H a' u j)).
    constructor.
    - apply text_upd; [apply HI|reflexivity].
    - intros i Hi He. rewrite (proj1 (proj2 (E i))). now apply HI.
    - intros i Hi He. rewrite (proj2 (proj2 (E i))). now apply HI.
    - intros i Hi Hn. destruct (E i) as (_ & -> & ->). apply HI; [assumption|]. intros a u j Hg. rewrite <- (proj1 (E a)). now apply (Hn a u j).
    - intros a u i j Hg Hcp Hout He. rewrite (proj1 (E a)) in Hcp. rewrite (proj2 (proj2 (E i))). apply (mi_extend h HI a u); auto.
    - intros a u i j Hg Hcp Hout He Hcalm. rewrite (proj1 (E a)) in Hcp. rewrite (proj1 (proj2 (E i))), Hdest. apply (mi_mirror h HI a u); auto.
    - intros i Si. destruct (mi_who h HI i Si) as [H|(a & u & j & H1 & H2 & H3)].
      + left. intros a u j Hg. rewrite (proj1 (E a)). now apply (H a u j).
      + right. exists a, u, j. split; [assumption|]. rewrite (proj1 (E a)). split; [assumption|]. intros a' u' j' Hab Hg. rewrite (proj1 (E a')). now apply (H3 a' u' j').
    - intros a Sa Hd. apply Hc. unfold h' in Hd. destruct (hupd_cases h s (set_deep_resolve false) a) as [Ea|[-> _]]; [|assumption].
      rewrite Ea in Hd. now apply (mi_deep h HI).
    - intros a u Ha Hcp. rewrite (proj1 (E a)) in Hcp. destruct (mi_done h HI a u Ha Hcp) as (D1 & D2 & D3). rewrite (proj1 (E u)). auto.
  Qed.

  Lemma above_child a c : sec c -> above h0 a c -> exists e, n_parent (hget h0 e) = Some a /\ sec e /\ (c = e \/ above h0 e c).
  Proof.
    intros Sc H. revert Sc. pose proof (an_s _ _ _ HA) as HS. induction H as [i p Hp|i p a Hp Ha IH]; intros [Li Ci].
    - exists i. split; [assumption|]. split; [now split|now left].
    - assert (sec p) as Sp.
      { assert (0 < i) as Hi by (destruct i; [rewrite (s_doc _ HS) in Ci; discriminate|lia]).
        destruct (s_node _ HS i ltac:(lia)) as (p' & Hp' & Hlt & Hpl). assert (p' = p) as -> by congruence. unfold placed in Hpl. rewrite Ci in Hpl.
        destruct Hpl as [Hsl _]. split; [lia|]. destruct p as [|p].
        - exfalso. inversion Ha as [? ? E|? ? ? E _]; subst; rewrite (s_docp _ HS) in E; discriminate.
        - destruct (s_node _ HS (S p) ltac:(lia)) as (q & _ & _ & Hq). unfold placed in Hq. unfold sec_like in Hsl.
          destruct (ncls (hget h0 (S p))); try reflexivity; destruct Hsl; try congruence; contradiction. }
      destruct (IH Sp) as (e & E1 & E2 & E3). exists e. split; [assumption|]. split; [assumption|]. right.
      destruct E3 as [->|E3]; [now apply above_parent|]. eapply above_up; eassumption.
  Qed.

  Context (ts : copy_table) (Hix : indexed h0 cs cn true ts).

  (** A property of heaps that both steps keep. *)
  Context (P : heap -> Prop).
  Context (P_clear : forall h s, MInv h -> P h -> P (hupd h s (set_deep_resolve false))).
  Context (P_step : forall h s t h3, MInv h -> P h -> sec s -> template_is true h0 s t -> n_copy (hget h s) = true -> n_deep_resolve (hget h s) = false ->
    n_copy (hget h t) = false -> n_deep_resolve (hget h t) = false -> consolidate_sections (S (length h)) h s t (n_deep_copy (hget h s)) = Some h3 ->
    P (hupd h3 s (set_copy false))).
  Definition MP (h : heap) : Prop := MInv h /\ P h.

  (** * Resolving one section *)
  Definition one_done (prev : list nat) (s : nat) (h : heap) (r : rres heap) : Prop :=
    match r with
    | ROk h' => MP h' /\ n_copy (hget h' s) = false /\ n_deep_resolve (hget h' s) = false /\ mono2 h h' /\
                forall x, In x prev -> n_copy (hget h' x) = n_copy (hget h x)
    | _ => True
    end.

  Lemma resolve_links fuel : forall h s prev, MP h -> sec s -> one_done prev s h (resolve_section fuel ts h s prev).
  Proof.
    induction fuel as [|f IH]; intros h s prev HI Hs; cbn [resolve_section]; [exact I|].
    destruct (mem s prev) eqn:Em; [exact I|].
    assert (~ In s prev) as Hnin by (intro Hin; apply mem_in in Hin; congruence). clear Em.
    set (G := fun h' e => if itype_eqb (n_type (hget h' e)) SECTION && (n_copy (hget h' e) || n_deep_resolve (hget h' e))
                          then resolve_section f ts h' e (prev ++ [s]) else ROk h').
    assert (forall l h1, MP h1 -> (forall e, In e l -> e < length h0) ->
      match rfold G l (ROk h1) with
      | ROk h2 => MP h2 /\ mono2 h1 h2 /\ (forall x, In x (prev ++ [s]) -> n_copy (hget h2 x) = n_copy (hget h1 x)) /\
          forall e, In e l -> sec e -> n_copy (hget h2 e) = false /\ n_deep_resolve (hget h2 e) = false
      | _ => True
      end) as Hfold.
    { induction l as [|e l IHl]; intros h1 H1 Hl.
      - cbn. split; [assumption|]. split; [apply mono2_refl|]. split; [reflexivity|]. intros e [].
      - change (rfold G (e :: l) (ROk h1)) with (rfold G l (G h1 e)).
        assert (match G h1 e with
          | ROk h2 => MP h2 /\ mono2 h1 h2 /\ (forall x, In x (prev ++ [s]) -> n_copy (hget h2 x) = n_copy (hget h1 x)) /\
              (sec e -> n_copy (hget h2 e) = false /\ n_deep_resolve (hget h2 e) = false)
          | _ => True
          end) as HG.
        { unfold G. assert (itype_eqb (n_type (hget h1 e)) SECTION = true <-> ncls (hget h0 e) = CSec) as Hty.
          { rewrite type_sec. rewrite (text_cls _ _ (proj2 (mi_text _ (proj1 H1)) e)). tauto. }
          destruct (itype_eqb (n_type (hget h1 e)) SECTION) eqn:Et; cbn [andb].
          - assert (sec e) as Se by (split; [apply Hl; now left|now apply Hty]). destruct (_ || _) eqn:Emk.
            + pose proof (IH h1 e (prev ++ [s]) H1 Se) as Hr. destruct (resolve_section f ts h1 e (prev ++ [s])); try exact I.
              destruct Hr as (R1 & R2 & R3 & R4 & R5). auto.
            + apply orb_false_iff in Emk as [E1 E2]. split; [assumption|]. split; [apply mono2_refl|]. split; [reflexivity|]. auto.
          - split; [assumption|]. split; [apply mono2_refl|]. split; [reflexivity|]. intros [_ Hce]. apply Hty in Hce. discriminate. }
        destruct (G h1 e) as [h2|x h2| |]; try (rewrite rfold_fail by discriminate; exact I).
        destruct HG as (G1 & G2 & G3 & G4). specialize (IHl h2 G1 ltac:(intros; apply Hl; now right)).
        destruct (rfold G l (ROk h2)) as [h3|x h3| |]; try exact I. destruct IHl as (I1 & I2 & I3 & I4).
        split; [assumption|]. split; [eapply mono2_trans; eassumption|]. split; [intros x Hx; rewrite I3, G3; auto|].
        intros e' [<-|Hin] Hce; [|auto]. destruct (G4 Hce). split; now apply I2. }
    assert (match (if n_deep_resolve (hget h s) then match rfold G (n_elements (hget h s)) (ROk h) with
                     | ROk h' => ROk (hupd h' s (set_deep_resolve false)) | r => r end else ROk h) with
      | ROk h1 => MP h1 /\ mono2 h h1 /\ (forall x, In x (prev ++ [s]) -> n_copy (hget h1 x) = n_copy (hget h x)) /\
          n_deep_resolve (hget h1 s) = false
      | _ => True
      end) as Hsub.
    { destruct (n_deep_resolve (hget h s)) eqn:Ed.
      - rewrite (text_elements _ _ (proj2 (mi_text _ (proj1 HI)) s)).
        specialize (Hfold (els s) h HI ltac:(intros e He; now apply (children_lt h0 cs cn HA s e (proj1 Hs) He))).
        destruct (rfold G (els s) (ROk h)) as [h1|x h1| |]; try exact I.
        destruct Hfold as (F1 & F2 & F3 & F4). assert (s < length h1) as Ls by (rewrite (proj1 (mi_text _ (proj1 F1))); apply Hs).
        assert (forall i, n_copy (hget (hupd h1 s (set_deep_resolve false)) i) = n_copy (hget h1 i)) as Hcp.
        { intro i. destruct (hupd_cases h1 s (set_deep_resolve false) i) as [->|[-> ->]]; reflexivity. }
        split; [|split; [|split]].
        + split; [|apply P_clear; apply F1]. apply step_clear; [apply F1|]. intros c Cc Hab. destruct (above_child s c (proj1 Cc) Hab) as (e & Pe & Se & He).
          destruct (F4 e) as [E1 E2]; [|assumption|].
          { apply (in_children h0 cs cn HA); try assumption; [apply Hs|apply Se|right; apply Se]. }
          destruct He as [->|He]; [assumption|]. now apply (mi_deep h1 (proj1 F1) e Se E2).
        + split.
          * intros i Hi. rewrite Hcp. now apply F2.
          * intros i Hi. destruct (hupd_cases h1 s (set_deep_resolve false) i) as [->|[-> ->]]; [now apply F2|reflexivity].
        + intros x Hx. rewrite Hcp. auto.
        + now rewrite hget_hupd by assumption.
      - split; [assumption|]. split; [apply mono2_refl|]. split; [reflexivity|assumption]. }
    change (fold_left (fun acc e => match acc with
              | ROk h' => if itype_eqb (n_type (hget h' e)) SECTION && (n_copy (hget h' e) || n_deep_resolve (hget h' e))
                          then resolve_section f ts h' e (prev ++ [s]) else ROk h'
              | r => r end) (n_elements (hget h s)) (ROk h)) with (rfold G (n_elements (hget h s)) (ROk h)).
    destruct (if n_deep_resolve (hget h s) then _ else ROk h) as [h1|x h1| |]; try exact I.
    destruct Hsub as (S1 & S2 & S3 & S4).
    destruct (n_copy (hget h1 s)) eqn:Ecp.
    2:{ split; [assumption|]. split; [assumption|]. split; [assumption|]. split; [assumption|]. intros x Hx. apply S3. apply in_or_app. now left. }
    destruct (template_of h1 ts s) as [t|] eqn:Et; [|exact I].
    destruct (links_template h0 cs cn ts Hix h1 s t (mi_text _ (proj1 S1)) Hs Et) as [Ht St].
    assert (match (if n_copy (hget h1 t) || n_deep_resolve (hget h1 t) then resolve_section f ts h1 t (prev ++ [s]) else ROk h1) with
      | ROk h2 => MP h2 /\ n_copy (hget h2 t) = false /\ n_deep_resolve (hget h2 t) = false /\ mono2 h1 h2 /\
                  forall x, In x (prev ++ [s]) -> n_copy (hget h2 x) = n_copy (hget h1 x)
      | _ => True
      end) as Htr.
    { destruct (_ || _) eqn:Emk; [exact (IH h1 t (prev ++ [s]) S1 St)|].
      apply orb_false_iff in Emk as [E1 E2]. split; [assumption|]. split; [assumption|]. split; [assumption|]. split; [apply mono2_refl|reflexivity]. }
    destruct (if n_copy (hget h1 t) || n_deep_resolve (hget h1 t) then _ else ROk h1) as [h2|x h2| |]; try exact I.
    destruct Htr as (T1 & T2 & T3 & T4 & T5).
    assert (n_copy (hget h2 s) = true) as Hc2 by (rewrite T5; [assumption|apply in_or_app; right; now left]).
    destruct (consolidate_sections (S (length h2)) h2 s t (n_deep_copy (hget h2 s))) as [h3|] eqn:E3; [|exact I].
    destruct (step_consolidate h2 s t h3 (proj1 T1) Hs Ht Hc2 ltac:(now apply T4) T2 T3 E3) as (HI3 & Hcs3 & Hci3 & Hd3).
    cbn [one_done]. split; [split; [assumption|]; apply (P_step h2 s t h3); try assumption; [apply T1|apply T1|now apply T4]|]. split; [assumption|]. split; [rewrite Hd3; now apply T4|]. split.
    - eapply mono2_trans; [eassumption|]. eapply mono2_trans; [eassumption|]. split.
      + intros i Hi. destruct (Nat.eq_dec i s) as [->|Hi']; [assumption|]. now rewrite Hci3.
      + intros i Hi. now rewrite Hd3.
    - intros x Hx. rewrite Hci3 by (intros ->; contradiction). rewrite T5, S3 by (apply in_or_app; now left). reflexivity.
  Qed.

  (** * All of them *)
  Lemma table_links r1 : (forall h s, r1 h s = resolve_section (S (length h0)) ts h s []) ->
    forall tbl, (forall k tg o c, In (k, (tg, o)) tbl -> In c tg -> sec c) ->
    forall h h', MP h -> resolve_table PSectionNotFound r1 tbl h = ROk h' ->
    MP h' /\ mono2 h h' /\ forall k tg o c, In (k, (tg, o)) tbl -> In c tg -> n_copy (hget h' c) = false.
  Proof.
    intro Hr1. unfold resolve_table. induction tbl as [|[k [tg o]] tbl IH]; intros Hts h h' HI; cbn [fold_left fst snd].
    - intros [= <-]. split; [assumption|]. split; [apply mono2_refl|]. intros ? ? ? ? [].
    - destruct o as [x|].
      2:{ intro E. exfalso. clear - E. induction tbl as [|y l IHl]; cbn [fold_left] in E; [discriminate|auto]. }
      assert (forall tg h, (forall c, In c tg -> sec c) -> MP h ->
        match fold_left (fun acc t => match acc with ROk h' => if n_copy (hget h' t) then r1 h' t else ROk h' | r => r end) tg (ROk h) with
        | ROk h2 => MP h2 /\ mono2 h h2 /\ forall c, In c tg -> n_copy (hget h2 c) = false
        | _ => True end) as Htg.
      { clear - Hr1 Hix HA P_clear P_step. induction tg as [|c tg IHt]; intros h Hc HI; cbn [fold_left].
        - split; [assumption|]. split; [apply mono2_refl|]. intros ? [].
        - assert (match (if n_copy (hget h c) then r1 h c else ROk h) with ROk h2 => MP h2 /\ mono2 h h2 /\ n_copy (hget h2 c) = false | _ => True end) as H1.
          { destruct (n_copy (hget h c)) eqn:Ec; [|split; [assumption|]; split; [apply mono2_refl|assumption]]. rewrite Hr1.
            pose proof (resolve_links (S (length h0)) h c [] HI ltac:(apply Hc; now left)) as Hd.
            destruct (resolve_section (S (length h0)) ts h c []); try exact I. destruct Hd as (D1 & D2 & D3 & D4 & _). auto. }
          destruct (if n_copy (hget h c) then r1 h c else ROk h) as [h1|x h1| |].
          2-4: match goal with |- match fold_left ?F ?tl ?a with _ => _ end => assert (forall l, fold_left F l a = a) as -> by (clear; induction l as [|y l IHl]; [reflexivity|exact IHl]); exact I end.
          destruct H1 as (A1 & A2 & A3). specialize (IHt h1 ltac:(intros; apply Hc; now right) A1).
          destruct (fold_left _ tg (ROk h1)) as [h2|x h2| |]; try exact I. destruct IHt as (B1 & B2 & B3).
          split; [assumption|]. split; [eapply mono2_trans; eassumption|]. intros c' [<-|Hc']; [now apply B2|auto]. }
      specialize (Htg tg h ltac:(intros c Hc; eapply Hts; [now left|assumption]) HI).
      destruct (fold_left _ tg (ROk h)) as [h1|x1 h1| |].
      2-4: intro E; exfalso; clear - E; induction tbl as [|y l IHl]; cbn [fold_left] in E; [discriminate|auto].
      destruct Htg as (A1 & A2 & A3). intro E. destruct (IH ltac:(intros; eapply Hts; [now right; eassumption|assumption]) h1 h' A1 E) as (B1 & B2 & B3).
      split; [assumption|]. split; [eapply mono2_trans; eassumption|]. intros k' tg' o' c [[= <- <- <-]|Hin] Hc; [now apply B2, A3|now apply (B3 k' tg' o')].
  Qed.
End Merge.

Theorem resolved_inv h0 cs cn h (P : heap -> Prop) : Analysed h0 cs cn ->
  (forall h1, same_text h0 h1 -> (forall i, sec h0 i -> hget h1 i = hget h0 i) -> P h1) ->
  (forall h1 s, MInv h0 h1 -> P h1 -> P (hupd h1 s (set_deep_resolve false))) ->
  (forall h1 s t h3, MInv h0 h1 -> P h1 -> sec h0 s -> template_is true h0 s t -> n_copy (hget h1 s) = true -> n_deep_resolve (hget h1 s) = false ->
    n_copy (hget h1 t) = false -> n_deep_resolve (hget h1 t) = false -> consolidate_sections (S (length h1)) h1 s t (n_deep_copy (hget h1 s)) = Some h3 ->
    P (hupd h3 s (set_copy false))) ->
  resolve h0 cs cn = ROk h -> MInv h0 h /\ P h /\ forall c, copier h0 c -> n_copy (hget h c) = false.
Proof.
  intros HA P_start P_clear P_step. unfold resolve. pose proof (index_spec h0 cs cn HA) as Hi.
  destruct (index (S (length h0)) h0 (start_table cs, start_table cn) 0) as [[ts tn]|x h1| |]; try discriminate.
  destruct Hi as [Hts Htn]. pose proof (fields_phase h0 cs cn HA tn Htn) as Hf.
  destruct (resolve_table PNonSectionNotFound _ tn h0) as [h1|x h1| |]; try discriminate.
  destruct Hf as ((Hlen1 & Hd1) & Htx1 & _). intro Hr.
  assert (forall i, sec h0 i -> hget h1 i = hget h0 i) as E1.
  { intros i [Hi Hc]. destruct (Hd1 i Hi) as [_ E]. apply E. now apply cls_not_elem. }
  assert (forall c, copier h0 c -> n_copy (hget h1 c) = true) as Hcp.
  { intros c [Sc Hc]. rewrite E1 by assumption. destruct (an_pr _ _ _ HA c (proj1 Sc)) as (_ & _ & _ & _ & _ & _ & _ & -> & _).
    destruct (n_template (hget h0 c)); [reflexivity|congruence]. }
  assert (forall i, sec h0 i -> n_mirror (hget h1 i) = None /\ n_extend (hget h1 i) = None) as Hl.
  { intros i Si. rewrite E1 by assumption. destruct (an_pr _ _ _ HA i (proj1 Si)) as (P1 & P2 & _). auto. }
  assert (forall a u i j, gives h0 a u i j -> n_copy (hget h1 a) = false -> False) as Hno.
  { intros a u i j Hg Hc. destruct (gives_in h0 cs cn HA a u i j Hg) as (Ca & _). rewrite (Hcp a Ca) in Hc. discriminate. }
  assert (MInv h0 h1) as H1.
  { constructor.
    - assumption.
    - intros i Si _. now apply Hl.
    - intros i Si _. now apply Hl.
    - intros i Si _. now apply Hl.
    - intros a u i j Hg Hc. exfalso. eapply Hno; eassumption.
    - intros a u i j Hg Hc. exfalso. eapply Hno; eassumption.
    - intros i Si. left. intros a u j Hg. apply Hcp. now apply (gives_in h0 cs cn HA a u i j).
    - intros a Sa Hd c Cc Hab. exfalso. rewrite E1 in Hd by assumption.
      assert (n_deep_resolve (hget h0 a) = true); [|congruence]. apply (an_deep _ _ _ HA a (proj1 Sa)). split; [apply Sa|].
      exists c. destruct Cc as [[? ?] ?]. auto.
    - intros a u Ha Hc. exfalso. apply (Hno a u a u); [|assumption]. split; [assumption|]. destruct (n_deep_copy (hget h0 a)); [constructor|auto]. }
  pose proof Hts as (_ & _ & I3 & I4).
  destruct (table_links h0 cs cn HA ts Hts P P_clear P_step _ ltac:(reflexivity) ts) with (h := h1) (h' := h) as ((R1 & RP) & R2 & R3); try assumption.
  { intros k tg o c Hin Hc. destruct (I3 _ _ _ Hin) as (_ & Hcc & _). apply Hcc in Hc as (C1 & C2 & _). now apply sec_kind. }
  { split; [assumption|]. now apply P_start. }
  split; [assumption|]. split; [assumption|]. intros c [Sc Hc]. destruct (n_template (hget h0 c)) as [k|] eqn:Ek; [|congruence].
  destruct (I4 k c) as (tg & slot & Hin & Hci); [|now apply (R3 k tg slot)].
  split; [apply Sc|]. split; [now apply sec_kind|assumption].
Qed.

Theorem resolved_merge h0 cs cn h : Analysed h0 cs cn -> resolve h0 cs cn = ROk h ->
  MInv h0 h /\ forall c, copier h0 c -> n_copy (hget h c) = false.
Proof.
  intros HA Hr. destruct (resolved_inv h0 cs cn h (fun _ => True) HA) as (H1 & _ & H2); auto.
Qed.
