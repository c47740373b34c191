(** ResolverSections: resolving the copies of sections. *)
From Coq Require Import Relations.
From Verif Require Import Base Types Scan Analyzer TokenStep HeapFacts AnalyzerInv AnalyzerLoop SpecTree AnalyzerTree
  AnalyzerFinal AnalyzerCopies Resolver SpecResolve ResolverIndex ResolverFields.

(** what section consolidation keeps *)
Definition frame (x y : node) : Prop :=
  text_part y = text_part x /\ n_type y = n_type x /\ n_copy y = n_copy x /\ n_deep_resolve y = n_deep_resolve x.
Lemma frame_refl x : frame x x.
Proof. repeat split. Qed.
Lemma frame_trans x y z : frame x y -> frame y z -> frame x z.
Proof. intros (A1 & A2 & A3 & A4) (B1 & B2 & B3 & B4). repeat split; congruence. Qed.

(** the section copying [t], whose instruction is [tn], after consolidation *)
Definition consol_section (t : nat) (tn sn : node) : node :=
  let sn := inherited tn sn in
  match n_elements sn with [] => mirrored t tn sn | _ => set_extend (Some t) sn end.

Lemma inherited_frame t e : frame e (inherited t e).
Proof. unfold inherited. destruct (n_comments t), (n_comments e); repeat split. Qed.
Lemma consol_section_frame t tn sn : frame sn (consol_section t tn sn).
Proof.
  eapply frame_trans; [apply (inherited_frame tn)|]. unfold consol_section.
  destruct (n_elements (inherited tn sn)); repeat split.
Qed.

(** * Which subsections are merged *)

Lemma assoc_upd_was {A} k (f : A -> A) v l k2 w : In (k2, w) (assoc_upd k f v l) ->
  In (k2, w) l \/ k2 = k /\ (w = v \/ exists w0, In (k, w0) l /\ w = f w0).
Proof.
  induction l as [|[k' x] l IH]; cbn.
  - intros [H|[]]. injection H as <- <-. auto.
  - destruct (text_eqb k k') eqn:E; cbn.
    + apply text_eqb_eq in E. subst k'. intros [H|H]; [|auto]. injection H as <- <-. right. split; [reflexivity|]. right. eauto.
    + intros [H|H]; [auto|]. destruct (IH H) as [G|(G1 & [G|(w0 & G2 & G3)])]; [auto|auto|].
      right. split; [assumption|]. right. exists w0. auto.
Qed.

Lemma merge_sections_in h els k s t : In (k, Some (s, t)) (merge_sections h els) ->
  In s els /\ n_type (hget h s) = SECTION /\ t = None.
Proof.
  unfold merge_sections.
  assert (forall l (mm : merge_map), (forall e, In e l -> In e els) ->
    (forall k s t, In (k, Some (s, t)) mm -> In s els /\ n_type (hget h s) = SECTION /\ t = None) ->
    forall k s t, In (k, Some (s, t)) (fold_left (fun mm e =>
      let k := key_of h e in
      if negb (itype_eqb (n_type (hget h e)) SECTION) || opt_is (assoc k mm)
      then assoc_upd k (fun _ => None) None mm
      else assoc_upd k (fun x => x) (Some (e, None)) mm) l mm) -> In s els /\ n_type (hget h s) = SECTION /\ t = None) as H.
  { induction l as [|e l IH]; intros mm Hl Hmm k' s' t'; [apply Hmm|]. cbn [fold_left].
    apply IH; [intros; apply Hl; now right|]. clear k' s' t'. intros k' s' t'. cbv zeta.
    destruct (itype_eqb (n_type (hget h e)) SECTION) eqn:Et; cbn [negb orb].
    - destruct (assoc (key_of h e) mm) as [v|] eqn:Ea; cbn [opt_is].
      + intro Hin. apply assoc_upd_was in Hin as [Hin|(-> & [Hin|(w & _ & Hin)])]; [eauto|discriminate..].
      + intro Hin. apply assoc_upd_was in Hin as [Hin|(-> & [Hin|(w & Hw & Hin)])]; [eauto| |subst w; eauto].
        injection Hin as -> ->. split; [apply Hl; now left|]. split; [|reflexivity].
        destruct (n_type (hget h e)); cbn in Et; congruence.
    - intro Hin. apply assoc_upd_was in Hin as [Hin|(-> & [Hin|(w & _ & Hin)])]; [eauto|discriminate..]. }
  intro Hin. eapply H; [| |exact Hin]; auto. intros ? ? ? [].
Qed.

Lemma merge_templates_in h els mm0 P k s t :
  (forall k s t, In (k, Some (s, t)) mm0 -> P s /\ t = None) ->
  In (k, Some (s, Some t)) (merge_templates h els mm0) -> P s /\ In t els /\ n_type (hget h t) = SECTION.
Proof.
  intro H0. unfold merge_templates.
  assert (forall l (mm : merge_map), (forall e, In e l -> In e els) ->
    (forall k s t, In (k, Some (s, t)) mm -> P s /\ forall t', t = Some t' -> In t' els /\ n_type (hget h t') = SECTION) ->
    forall k s t, In (k, Some (s, t)) (fold_left (fun mm e =>
    let k := key_of h e in
    match assoc k mm with
    | None | Some None => mm
    | Some (Some (s, t)) =>
        if negb (itype_eqb (n_type (hget h e)) SECTION) || opt_is t
        then assoc_upd k (fun _ => None) None mm
        else assoc_upd k (fun _ => Some (s, Some e)) None mm
    end) l mm) -> P s /\ forall t', t = Some t' -> In t' els /\ n_type (hget h t') = SECTION) as H.
  { induction l as [|e l IH]; intros mm Hl Hmm k' s' t'; [apply Hmm|]. cbn [fold_left].
    apply IH; [intros; apply Hl; now right|]. clear k' s' t'. intros k' s' t'. cbv zeta.
    destruct (assoc (key_of h e) mm) as [[[s1 t1]|]|] eqn:Ea; [|eauto..]. apply assoc_in in Ea.
    destruct (itype_eqb (n_type (hget h e)) SECTION) eqn:Et; cbn [negb orb]; [destruct t1; cbn [opt_is]|];
      intro Hin; apply assoc_upd_was in Hin as [Hin|(-> & [Hin|(w & Hw & Hin)])]; try discriminate; eauto.
    injection Hin as -> ->. split; [apply (Hmm _ _ _ Ea)|]. intros t2 [= <-]. split; [apply Hl; now left|].
    destruct (n_type (hget h e)); cbn in Et; congruence. }
  intro Hin. destruct (H els mm0 ltac:(auto) ltac:(intros k' s' t' Hi; destruct (H0 _ _ _ Hi) as [? ->]; split; [assumption|discriminate]) _ _ _ Hin) as [H1 H2].
  split; [assumption|]. now apply H2.
Qed.

Lemma mergers_in h els tels s t : In (s, t) (mergers (merge_templates h tels (merge_sections h els))) ->
  In s els /\ n_type (hget h s) = SECTION /\ In t tels /\ n_type (hget h t) = SECTION.
Proof.
  unfold mergers. rewrite in_flat_map. intros ([k v] & Hin & Hp). cbn [snd] in Hp.
  destruct v as [[s' [t'|]]|]; try destruct Hp as [[= -> ->]|[]]; try contradiction.
  apply (merge_templates_in _ _ _ (fun s => In s els /\ n_type (hget h s) = SECTION)) in Hin.
  - destruct Hin as ((? & ?) & ? & ?). auto.
  - intros k' s' t' Hi. apply merge_sections_in in Hi as (? & ? & ?). auto.
Qed.

Section Sections.
  Context (h0 : heap) (cs cn : list (text * list nat)) (HA : Analysed h0 cs cn).
  Let HS := an_s _ _ _ HA.
  Let HD := an_d _ _ _ HA.

  (** the texts are those of [h0] *)
  Notation same_text := (same_text h0).

  Lemma text_elements x y : text_part x = text_part y -> n_elements x = n_elements y.
  Proof. unfold text_part. congruence. Qed.
  Lemma type_class x y : text_part x = text_part y -> n_type x = SECTION -> ncls y = CSec.
  Proof. intros H Ht. rewrite <- (text_cls _ _ H). unfold ncls. now rewrite Ht. Qed.

  (** [h'] is [h] up to changes below [s] (and at [s]) *)
  Definition changed_at (s : nat) (deep : bool) (h h' : heap) : Prop :=
    length h' = length h /\ (forall i, frame (hget h i) (hget h' i)) /\
    forall i, i <> s -> ~ (deep = true /\ above h0 s i /\ ncls (hget h0 i) = CSec) -> hget h' i = hget h i.

  Lemma changed_text s deep h h' : changed_at s deep h h' -> same_text h -> same_text h'.
  Proof.
    intros (H1 & H2 & _) [H3 H4]. split; [congruence|]. intro i. rewrite <- H4. apply H2.
  Qed.

  Lemma consolidate_sections_eq fuel : forall h s t deep, same_text h -> s < length h0 -> s <> t -> length h0 - s < fuel ->
    exists h', consolidate_sections fuel h s t deep = Some h' /\ changed_at s deep h h' /\
      hget h' s = consol_section t (hget h t) (hget h s).
  Proof.
    induction fuel as [|f IH]; intros h s t deep Hst Hs Hne Hf; [lia|]. cbn [consolidate_sections].
    pose proof Hst as [Hlen Htx].
    rewrite inherit_eq by lia. set (sn := inherited (hget h t) (hget h s)).
    rewrite hget_set by lia.
    assert (forall x, frame (hget h s) x -> changed_at s deep h (hupd h s (fun _ => x))) as Hupd.
    { intros x Hx. split; [apply hupd_length|]. split.
      - intro i. destruct (Nat.eq_dec s i) as [<-|Hi]; [now rewrite hget_set by lia|rewrite hget_set_neq by assumption; apply frame_refl].
      - intros i Hi _. rewrite hget_set_neq by congruence. reflexivity. }
    assert (frame (hget h s) sn) as Hsn by apply inherited_frame.
    destruct (n_elements sn) as [|e0 els0] eqn:Eel.
    - exists (hupd h s (fun _ => consol_section t (hget h t) (hget h s))). split; [|split].
      + rewrite mirror_eq by (rewrite hupd_length; lia). rewrite hget_set_neq, hget_set, hupd_hupd by (assumption || lia).
        unfold consol_section. fold sn. now rewrite Eel.
      + apply Hupd. apply consol_section_frame.
      + rewrite hget_set by lia. reflexivity.
    - rewrite hupd_hupd by lia.
      assert (set_extend (Some t) sn = consol_section t (hget h t) (hget h s)) as Ecs.
      { unfold consol_section. fold sn. now rewrite Eel. }
      rewrite Ecs. set (h1 := hupd h s (fun _ => consol_section t (hget h t) (hget h s))).
      assert (changed_at s deep h h1) as Hc1 by (apply Hupd; apply consol_section_frame).
      assert (hget h1 s = consol_section t (hget h t) (hget h s)) as Hg1 by (unfold h1; apply hget_set; lia).
      destruct deep; cbn [negb].
      2:{ exists h1. auto. }
      assert (forall l h2, changed_at s true h h2 -> hget h2 s = consol_section t (hget h t) (hget h s) ->
        (forall a b, In (a, b) l -> s < a < length h0 /\ above h0 s a /\ a <> b /\ ncls (hget h0 a) = CSec) ->
        exists h', fold_left (fun acc st => match acc with Some h' => consolidate_sections f h' (fst st) (snd st) true | None => None end) l (Some h2) = Some h' /\
          changed_at s true h h' /\ hget h' s = consol_section t (hget h t) (hget h s)) as Hfold.
      { induction l as [|[a b] l IHl]; intros h2 Hc2 Hg2 Hl; [exists h2; auto|]. cbn [fold_left fst snd].
        destruct (Hl a b ltac:(now left)) as (Ha & Hab & Hne' & Hca).
        destruct (IH h2 a b true ltac:(eapply changed_text; eassumption) ltac:(lia) Hne' ltac:(lia)) as (h3 & -> & Hc3 & _).
        apply IHl.
        - destruct Hc2 as (C1 & C2 & C3), Hc3 as (D1 & D2 & D3). split; [congruence|]. split.
          + intro i. eapply frame_trans; eauto.
          + intros i Hi Hn. rewrite <- C3 by assumption. apply D3; [intros ->; tauto|].
            intros (_ & Hai & Hci). apply Hn. split; [reflexivity|]. split; [eapply above_trans; eassumption|assumption].
        - destruct Hc3 as (D1 & D2 & D3). rewrite <- Hg2. apply D3; [lia|]. intros (_ & Hai & _).
          apply (above_lt _ _ _ HS Hs) in Hai. lia.
        - intros a' b' Hi. apply Hl. now right. }
      apply Hfold; try assumption. intros a b Hab. apply mergers_in in Hab as (Ha & Hat & Hb & Hbt).
      pose proof (changed_text _ _ _ _ Hc1 Hst) as [Hl1 Ht1].
      rewrite <- Eel in Ha.
      assert (n_elements sn = n_elements (hget h0 s)) as E1.
      { apply text_elements. transitivity (text_part (hget h s)); [apply inherited_text|apply Htx]. }
      rewrite E1 in Ha. rewrite (text_elements _ _ (Ht1 t)) in Hb.
      destruct (children_lt h0 cs cn HA s a Hs Ha) as (Ha1 & Ha2 & Ha3 & _).
      split; [lia|]. split; [now apply above_parent|]. split; [|now apply (type_class _ _ (Ht1 a))].
      intros ->. destruct (Nat.lt_ge_cases t (length h0)) as [Htl|Htl].
      + destruct (children_lt h0 cs cn HA t b Htl Hb) as (_ & _ & Hb3 & _). congruence.
      + unfold hget in Hb. rewrite nth_overflow in Hb by assumption. destruct Hb.
  Qed.

  (** * The invariant *)

  (** state of a section up to the mark for copies below it *)
  Definition cleared (n : node) : node := set_deep_resolve false n.

  (** no section around [i] is a deep copy *)
  Definition unmerged (i : nat) : Prop := forall a, above h0 a i -> n_deep_copy (hget h0 a) = false.
  (** ... nor around the sections [i] copies *)
  Definition sheltered (i : nat) : Prop := forall j, clos_refl_trans nat (template_is true h0) i j -> unmerged j.
  Lemma sheltered_self i : sheltered i -> unmerged i.
  Proof. intro H. apply H. apply rt_refl. Qed.
  Lemma sheltered_next i t : sheltered i -> template_is true h0 i t -> sheltered t.
  Proof. intros H Ht j Hj. apply H. eapply rt_trans; [apply rt_step; eassumption|assumption]. Qed.

  Inductive settled : nat -> node -> Prop :=
  | set_plain i : n_template (hget h0 i) = None -> settled i (cleared (hget h0 i))
  | set_copied i t tn : template_is true h0 i t -> settled t tn ->
      settled i (set_copy false (consol_section t tn (cleared (hget h0 i)))).

  Lemma settled_fun i n n' : settled i n -> settled i n' -> n = n'.
  Proof.
    intro H. revert n'. induction H as [i Hi|i t tn Ht Hf IH]; intros n' H'; inversion H' as [j Hj|j t' tn' Ht' Hf']; subst.
    - reflexivity.
    - now apply template_copies in Ht'.
    - now apply template_copies in Ht.
    - assert (t' = t) as -> by (eapply template_fun; eauto). apply IH in Hf'. now subst.
  Qed.

  Context (hs : heap) (Hlen_s : length hs = length h0)
    (Htext_s : forall i, text_part (hget hs i) = text_part (hget h0 i))
    (Hsec_s : forall i, ~ of_kind false (hget h0 i) -> hget hs i = hget h0 i)
    (ts : copy_table) (Hix : indexed h0 cs cn true ts).

  Notation Good := (Acc (fun x y => depends true h0 y x)).

  Record SecInv (h : heap) : Prop := {
    si_text : same_text h;
    si_type : forall i, n_type (hget h i) = n_type (hget hs i);
    si_keep : forall i, ncls (hget h0 i) <> CSec -> hget h i = hget hs i;
    si_copy : forall i, n_copy (hget h i) = true -> n_copy (hget hs i) = true;
    si_deep : forall i, n_deep_resolve (hget h i) = true -> n_deep_resolve (hget hs i) = true;
    si_below : forall i j, i < length h0 -> ncls (hget h0 i) = CSec -> n_deep_resolve (hget h i) = false ->
      j < length h0 -> n_parent (hget h0 j) = Some i -> unsettled h0 j -> Good j;
    si_tpl : forall i t, n_copy (hget h i) = false -> template_is true h0 i t -> Good t;
    si_same : forall i, ncls (hget h0 i) = CSec -> sheltered i -> n_copy (hget h i) = true ->
      cleared (hget h i) = cleared (hget h0 i);
    si_final : forall i, ncls (hget h0 i) = CSec -> sheltered i -> n_copy (hget h i) = false ->
      settled i (cleared (hget h i))
  }.

  Lemma cls_not_elem i : ncls (hget h0 i) = CSec -> ~ of_kind false (hget h0 i).
  Proof. intros H G. apply kind_cls in G. congruence. Qed.
  Lemma copy_template i : n_copy (hget h0 i) = opt_is (n_template (hget h0 i)).
  Proof. pose proof (pristine_over h0 cs cn HA i) as (_ & _ & _ & _ & _ & _ & _ & H & _). exact H. Qed.

  Lemma unsettled_marks j : j < length h0 -> ncls (hget h0 j) = CSec ->
    (unsettled h0 j <-> n_copy (hget h0 j) = true \/ n_deep_resolve (hget h0 j) = true).
  Proof.
    intros Hj Hc. rewrite copy_template. unfold unsettled. rewrite (an_deep _ _ _ HA j Hj). split.
    - intros [_ [(k & _ & _ & Hk)|(i & k & He & Hi & Hik & Hk)]].
      + left. now rewrite Hk.
      + right. split; [assumption|]. exists i. apply encloses_above in He. split; [assumption|]. split; [assumption|].
        apply (kind_cls true) in Hik. split; [exact Hik|congruence].
    - intro H. split; [now apply (kind_cls true)|]. destruct H as [H|(_ & i & Hi & Ha & Hci & Ht)].
      + left. destruct (n_template (hget h0 j)) as [k|] eqn:Ek; [|discriminate]. exists k. split; [assumption|]. split; [now apply (kind_cls true)|assumption].
      + right. destruct (n_template (hget h0 i)) as [k|] eqn:Ek; [|congruence]. exists i, k. split; [now apply encloses_above|].
        split; [assumption|]. split; [now apply (kind_cls true)|assumption].
  Qed.

  Lemma good h i : SecInv h -> i < length h0 -> ncls (hget h0 i) = CSec -> n_copy (hget h i) = false ->
    n_deep_resolve (hget h i) = false -> Good i.
  Proof.
    intros HI Hi Hc H1 H2. constructor. intros j [Hj|(_ & _ & Hj & Hp & Hu)].
    - exact (si_tpl h HI i j H1 Hj).
    - exact (si_below h HI i j Hi Hc H2 Hj Hp Hu).
  Qed.

  Lemma SecInv_start : SecInv hs.
  Proof.
    constructor.
    - split; assumption.
    - intro. reflexivity.
    - intros. reflexivity.
    - auto.
    - auto.
    - intros i j Hi Hc Hd Hj Hp Hu. rewrite Hsec_s in Hd by now apply cls_not_elem. exfalso.
      assert (n_deep_resolve (hget h0 i) = true); [|congruence]. apply (an_deep _ _ _ HA i Hi). split; [assumption|].
      destruct Hu as (Hs & [(k & Hk1 & Hk2 & Hk3)|(e & k & He & Hk1 & Hk2 & Hk3)]).
      + exists j. split; [assumption|]. split; [now apply above_parent|]. apply (kind_cls true) in Hk2. split; [exact Hk2|congruence].
      + exists e. split; [assumption|]. split; [eapply above_trans; [apply above_parent; exact Hp|now apply encloses_above]|].
        apply (kind_cls true) in Hk2. split; [exact Hk2|congruence].
    - intros i t Hc Ht. exfalso. apply template_copies in Ht as Ht'. destruct Ht as (k & (_ & Hk & Hkt) & _).
      rewrite Hsec_s in Hc by (apply cls_not_elem; now apply (kind_cls true)). rewrite copy_template, Hkt in Hc. discriminate.
    - intros i Hc _ _. now rewrite Hsec_s by now apply cls_not_elem.
    - intros i Hc _ H. rewrite Hsec_s in * by now apply cls_not_elem. apply set_plain. rewrite copy_template in H.
      destruct (n_template (hget h0 i)); [discriminate|reflexivity].
  Qed.

  (** * The steps *)

  (** marks are only removed *)
  Definition mono2 (h h' : heap) : Prop :=
    mono h h' /\ forall i, n_deep_resolve (hget h i) = false -> n_deep_resolve (hget h' i) = false.
  Lemma mono2_refl h : mono2 h h. Proof. split; intros i Hi; assumption. Qed.
  Lemma mono2_trans h1 h2 h3 : mono2 h1 h2 -> mono2 h2 h3 -> mono2 h1 h3.
  Proof. intros [A B] [C D]. split; intros i Hi; auto. Qed.

  Lemma hget_hupd h s f : s < length h -> hget (hupd h s f) s = f (hget h s).
  Proof. intro H. unfold hupd. now rewrite hget_upd_eq. Qed.

  Lemma same_text_upd h s f : same_text h -> s < length h0 -> (forall n, text_part (f n) = text_part n) -> same_text (hupd h s f).
  Proof.
    intros [H1 H2] Hs Hf. split; [now rewrite hupd_length|]. intro i. destruct (Nat.eq_dec s i) as [<-|Hi].
    - rewrite hget_hupd by lia. now rewrite Hf.
    - now rewrite hget_set_neq.
  Qed.

  Lemma clear_step h s : SecInv h -> s < length h0 -> ncls (hget h0 s) = CSec ->
    (forall j, j < length h0 -> n_parent (hget h0 j) = Some s -> unsettled h0 j -> Good j) ->
    SecInv (hupd h s (set_deep_resolve false)).
  Proof.
    intros HI Hs Hc Hch. set (h' := hupd h s (set_deep_resolve false)).
    pose proof (si_text _ HI) as [Hlen _].
    assert (hget h' s = set_deep_resolve false (hget h s)) as Hs' by (apply hget_hupd; lia).
    assert (forall i, i <> s -> hget h' i = hget h i) as Hne by (intros; apply hget_set_neq; congruence).
    assert (forall i, n_copy (hget h' i) = n_copy (hget h i)) as Hcp.
    { intro i. destruct (Nat.eq_dec i s) as [->|Hi]; [now rewrite Hs'|now rewrite Hne]. }
    assert (forall i, cleared (hget h' i) = cleared (hget h i)) as Hcl.
    { intro i. destruct (Nat.eq_dec i s) as [->|Hi]; [now rewrite Hs'|now rewrite Hne]. }
    constructor.
    - apply same_text_upd; [apply HI|assumption|reflexivity].
    - intro i. rewrite <- (si_type _ HI). destruct (Nat.eq_dec i s) as [->|Hi]; [now rewrite Hs'|now rewrite Hne].
    - intros i Hi. rewrite Hne by congruence. now apply HI.
    - intro i. rewrite Hcp. apply HI.
    - intro i. destruct (Nat.eq_dec i s) as [->|Hi]; [rewrite Hs'; discriminate|rewrite Hne by assumption; apply HI].
    - intros i j Hi Hci Hd Hj Hp Hu. destruct (Nat.eq_dec i s) as [->|His]; [now apply Hch|].
      rewrite Hne in Hd by assumption. exact (si_below _ HI i j Hi Hci Hd Hj Hp Hu).
    - intros i t. rewrite Hcp. apply HI.
    - intros i. rewrite Hcp, Hcl. apply HI.
    - intros i. rewrite Hcp, Hcl. apply HI.
  Qed.

  Lemma consol_cleared t tn tn' sn sn' : cleared tn = cleared tn' -> cleared sn = cleared sn' ->
    cleared (consol_section t tn sn) = consol_section t (cleared tn') (cleared sn').
  Proof.
    intros Et Es. rewrite <- Es, <- Et. clear Et Es tn' sn'. unfold consol_section, inherited, mirrored, cleared.
    destruct tn, sn; cbn. destruct n_comments, n_comments0; cbn; destruct n_elements0; reflexivity.
  Qed.

  Lemma consol_step h s t : SecInv h -> s < length h0 -> ncls (hget h0 s) = CSec -> n_copy (hget h s) = true ->
    template_is true h0 s t -> n_copy (hget h t) = false -> n_deep_resolve (hget h t) = false ->
    exists h3, consolidate_sections (S (length h)) h s t (n_deep_copy (hget h s)) = Some h3 /\
      let h' := hupd h3 s (set_copy false) in
      SecInv h' /\ (forall i, n_deep_resolve (hget h' i) = n_deep_resolve (hget h i)) /\
      n_copy (hget h' s) = false /\ forall i, i <> s -> n_copy (hget h' i) = n_copy (hget h i).
  Proof.
    intros HI Hs Hc Hcp Ht Htc Htd. pose proof (si_text _ HI) as [Hlen Htx].
    pose proof (template_neq _ _ _ _ Ht) as Hne. destruct (template_lt _ _ _ _ Ht) as [_ Htl].
    assert (ncls (hget h0 t) = CSec) as Hct.
    { destruct Ht as (k & _ & (_ & H & _) & _). now apply (kind_cls true) in H. }
    assert (n_deep_copy (hget h s) = n_deep_copy (hget h0 s)) as Hdc by (pose proof (Htx s) as E; unfold text_part in E; congruence).
    rewrite Hdc. set (dp := n_deep_copy (hget h0 s)).
    destruct (consolidate_sections_eq (S (length h)) h s t dp (si_text _ HI) Hs Hne ltac:(lia)) as (h3 & -> & HC & Hg).
    exists h3. split; [reflexivity|]. cbv zeta. set (h' := hupd h3 s (set_copy false)).
    pose proof HC as (C1 & C2 & C3).
    assert (hget h' s = set_copy false (hget h3 s)) as Hs' by (apply hget_hupd; lia).
    assert (forall i, i <> s -> hget h' i = hget h3 i) as Hne3 by (intros; apply hget_set_neq; congruence).
    assert (forall i, n_deep_resolve (hget h' i) = n_deep_resolve (hget h i)) as Hdr.
    { intro i. destruct (C2 i) as (_ & _ & _ & E). rewrite <- E. destruct (Nat.eq_dec i s) as [->|Hi]; [now rewrite Hs'|now rewrite Hne3]. }
    assert (forall i, i <> s -> n_copy (hget h' i) = n_copy (hget h i)) as Hcpi.
    { intros i Hi. destruct (C2 i) as (_ & _ & E & _). now rewrite Hne3. }
    assert (n_copy (hget h' s) = false) as Hcs by now rewrite Hs'.
    assert (forall i, i <> s -> sheltered i -> hget h' i = hget h i) as Hsh.
    { intros i Hi Hshi. rewrite Hne3 by assumption. apply C3; [assumption|]. intros (Hd & Hab & _).
      apply sheltered_self in Hshi. rewrite (Hshi s Hab) in Hdc. unfold dp in Hd. rewrite (Hshi s Hab) in Hd. discriminate. }
    split; [|auto]. constructor.
    - apply same_text_upd; [eapply changed_text; [exact HC|apply HI]|assumption|reflexivity].
    - intro i. rewrite <- (si_type _ HI). destruct (C2 i) as (_ & E & _). rewrite <- E.
      destruct (Nat.eq_dec i s) as [->|Hi]; [now rewrite Hs'|now rewrite Hne3].
    - intros i Hi. rewrite Hne3 by congruence. rewrite C3; [now apply HI|congruence|]. intros (_ & _ & E). contradiction.
    - intro i. destruct (Nat.eq_dec i s) as [->|Hi]; [congruence|]. rewrite Hcpi by assumption. apply HI.
    - intro i. rewrite Hdr. apply HI.
    - intros i j Hi Hci. rewrite Hdr. intros Hd Hj Hp Hu. exact (si_below _ HI i j Hi Hci Hd Hj Hp Hu).
    - intros i t'. destruct (Nat.eq_dec i s) as [->|Hi].
      + intros _ Ht'. rewrite (template_fun _ _ _ _ _ Ht' Ht). now apply (good h).
      + rewrite Hcpi by assumption. apply HI.
    - intros i Hci Hshi. destruct (Nat.eq_dec i s) as [->|Hi]; [congruence|]. rewrite Hcpi, Hsh by assumption. now apply HI.
    - intros i Hci Hshi. destruct (Nat.eq_dec i s) as [->|Hi]; [|rewrite Hcpi, Hsh by assumption; now apply HI].
      intros _. rewrite Hs', Hg.
      change (cleared (set_copy false (consol_section t (hget h t) (hget h s)))) with
        (set_copy false (cleared (consol_section t (hget h t) (hget h s)))).
      rewrite (consol_cleared t (hget h t) (hget h t) (hget h s) (hget h0 s) eq_refl (si_same _ HI s Hc Hshi Hcp)).
      apply set_copied; [assumption|]. apply HI; [assumption|eapply sheltered_next; eassumption|assumption].
  Qed.

  (** * Resolving one section *)

  (** the errors resolving the section copies can give *)
  Inductive section_error : perr -> Prop :=
  | se_missing c : dangling true h0 c -> section_error (PSectionNotFound c)
  | se_cyclic e prev : In e prev -> chain true h0 prev e -> section_error (PCyclic e prev).

  Definition section_result (prev : list nat) (s : nat) (h : heap) (r : rres heap) : Prop :=
    match r with
    | ROk h' => SecInv h' /\ n_copy (hget h' s) = false /\ n_deep_resolve (hget h' s) = false /\ mono2 h h' /\
                forall x, In x prev -> n_copy (hget h' x) = n_copy (hget h x)
    | RErr x h' => section_error x /\ same_text h'
    | RKey => exists j, dangling true h0 j /\ clos_refl_trans nat (depends true h0) s j
    | RFuel => False
    end.

  Lemma resolve_section_ok fuel : forall h s prev, SecInv h -> s < length h0 -> ncls (hget h0 s) = CSec ->
    NoDup prev -> (forall x, In x prev -> x < length h0) -> chain true h0 prev s -> length h0 < fuel + length prev ->
    section_result prev s h (resolve_section fuel ts h s prev).
  Proof.
    induction fuel as [|f IH]; intros h s prev HI Hs Hc Hnd Hlt Hch Hfuel.
    { pose proof (NoDup_bound _ _ Hnd Hlt). cbn in Hfuel. lia. }
    cbn [resolve_section]. destruct (mem s prev) eqn:Em.
    { apply mem_in in Em. cbn. split; [now constructor|apply HI]. }
    assert (~ In s prev) as Hnin by (intro Hin; apply mem_in in Hin; congruence). clear Em.
    assert (NoDup (prev ++ [s])) as Hnd' by now apply NoDup_snoc.
    assert (forall x, In x (prev ++ [s]) -> x < length h0) as Hlt'.
    { intros x Hx. apply in_app_or in Hx as [Hx|[<-|[]]]; auto. }
    assert (length h0 < f + length (prev ++ [s])) as Hfuel' by (rewrite app_length; cbn [length]; lia).
    (* one dependency *)
    assert (forall h1 e, SecInv h1 -> e < length h0 -> ncls (hget h0 e) = CSec -> depends true h0 s e ->
      section_result (prev ++ [s]) e h1 (resolve_section f ts h1 e (prev ++ [s]))) as Hdep.
    { intros h1 e HI1 He Hce Hd. apply IH; auto. now apply chain_snoc. }
    assert (forall h1 e, SecInv h1 -> e < length h0 -> ncls (hget h0 e) = CSec ->
      n_copy (hget h1 e) || n_deep_resolve (hget h1 e) = true -> unsettled h0 e) as Hun.
    { intros h1 e HI1 He Hce Hm. apply unsettled_marks; try assumption. apply orb_true_iff in Hm as [Hm|Hm].
      - apply (si_copy _ HI1) in Hm. rewrite Hsec_s in Hm by now apply cls_not_elem. now left.
      - apply (si_deep _ HI1) in Hm. rewrite Hsec_s in Hm by now apply cls_not_elem. now right. }
    (* the subsections *)
    set (G := fun h' e => if itype_eqb (n_type (hget h' e)) SECTION && (n_copy (hget h' e) || n_deep_resolve (hget h' e))
                          then resolve_section f ts h' e (prev ++ [s]) else ROk h').
    assert (forall l h1, SecInv h1 -> (forall e, In e l -> e < length h0 /\ n_parent (hget h0 e) = Some s) ->
      match rfold G l (ROk h1) with
      | ROk h2 => SecInv h2 /\ mono2 h1 h2 /\ (forall x, In x (prev ++ [s]) -> n_copy (hget h2 x) = n_copy (hget h1 x)) /\
          forall e, In e l -> ncls (hget h0 e) = CSec -> n_copy (hget h2 e) = false /\ n_deep_resolve (hget h2 e) = false
      | RErr x h2 => section_error x /\ same_text h2
      | RKey => exists j, dangling true h0 j /\ clos_refl_trans nat (depends true h0) s j
      | RFuel => False
      end) as Hfold.
    { induction l as [|e l IHl]; intros h1 HI1 Hl.
      - cbn. split; [assumption|]. split; [apply mono2_refl|]. split; [reflexivity|]. intros e [].
      - change (rfold G (e :: l) (ROk h1)) with (rfold G l (G h1 e)). destruct (Hl e ltac:(now left)) as [He Hp].
        assert (match G h1 e with
          | ROk h2 => SecInv h2 /\ mono2 h1 h2 /\ (forall x, In x (prev ++ [s]) -> n_copy (hget h2 x) = n_copy (hget h1 x)) /\
              (ncls (hget h0 e) = CSec -> n_copy (hget h2 e) = false /\ n_deep_resolve (hget h2 e) = false)
          | RErr x h2 => section_error x /\ same_text h2
          | RKey => exists j, dangling true h0 j /\ clos_refl_trans nat (depends true h0) s j
          | RFuel => False
          end) as HG.
        { unfold G. assert (itype_eqb (n_type (hget h1 e)) SECTION = true <-> ncls (hget h0 e) = CSec) as Hty.
          { rewrite type_sec. rewrite (text_cls _ _ (proj2 (si_text _ HI1) e)). tauto. }
          destruct (itype_eqb (n_type (hget h1 e)) SECTION) eqn:Et; cbn [andb].
          - pose proof (proj1 Hty eq_refl) as Hce. destruct (n_copy (hget h1 e) || n_deep_resolve (hget h1 e)) eqn:Emk.
            + pose proof (Hun h1 e HI1 He Hce Emk) as Hu.
              assert (depends true h0 s e) as Hd.
              { right. split; [reflexivity|]. split; [now apply (kind_cls true)|]. auto. }
              pose proof (Hdep h1 e HI1 He Hce Hd) as Hr.
              destruct (resolve_section f ts h1 e (prev ++ [s])) as [h2|x h2| |]; cbn [section_result] in Hr; try assumption.
              * destruct Hr as (R1 & R2 & R3 & R4 & R5). auto.
              * destruct Hr as (j & Hj1 & Hj2). exists j. split; [assumption|]. eapply rt_trans; [apply rt_step; exact Hd|assumption].
            + apply orb_false_iff in Emk as [E1 E2]. split; [assumption|]. split; [apply mono2_refl|]. split; [reflexivity|]. auto.
          - split; [assumption|]. split; [apply mono2_refl|]. split; [reflexivity|]. intro Hce. apply Hty in Hce. discriminate. }
        destruct (G h1 e) as [h2|x h2| |]; try (rewrite rfold_fail by discriminate; assumption).
        destruct HG as (G1 & G2 & G3 & G4). specialize (IHl h2 G1 ltac:(intros; apply Hl; now right)).
        destruct (rfold G l (ROk h2)) as [h3|x h3| |]; try assumption. destruct IHl as (I1 & I2 & I3 & I4).
        split; [assumption|]. split; [eapply mono2_trans; eassumption|]. split; [intros x Hx; rewrite I3, G3; auto|].
        intros e' [<-|Hin] Hce; [|auto]. destruct (G4 Hce). split; now apply I2. }
    (* after the subsections *)
    assert (match (if n_deep_resolve (hget h s) then match rfold G (n_elements (hget h s)) (ROk h) with
                     | ROk h' => ROk (hupd h' s (set_deep_resolve false)) | r => r end else ROk h) with
      | ROk h1 => SecInv h1 /\ mono2 h h1 /\ (forall x, In x (prev ++ [s]) -> n_copy (hget h1 x) = n_copy (hget h x)) /\
          n_deep_resolve (hget h1 s) = false
      | RErr x h1 => section_error x /\ same_text h1
      | RKey => exists j, dangling true h0 j /\ clos_refl_trans nat (depends true h0) s j
      | RFuel => False
      end) as Hsub.
    { destruct (n_deep_resolve (hget h s)) eqn:Ed.
      - assert (n_elements (hget h s) = n_elements (hget h0 s)) as Eel by (apply text_elements; apply HI).
        rewrite Eel.
        specialize (Hfold (n_elements (hget h0 s)) h HI ltac:(intros e He; destruct (children_lt h0 cs cn HA s e Hs He) as (? & ? & ? & _); auto)).
        destruct (rfold G (n_elements (hget h0 s)) (ROk h)) as [h1|x h1| |]; try assumption.
        destruct Hfold as (F1 & F2 & F3 & F4). pose proof (si_text _ F1) as [Hl1 _].
        assert (hget (hupd h1 s (set_deep_resolve false)) s = set_deep_resolve false (hget h1 s)) as Hs' by (apply hget_hupd; lia).
        assert (forall i, i <> s -> hget (hupd h1 s (set_deep_resolve false)) i = hget h1 i) as Hne by (intros; apply hget_set_neq; congruence).
        assert (forall i, n_copy (hget (hupd h1 s (set_deep_resolve false)) i) = n_copy (hget h1 i)) as Hcp.
        { intro i. destruct (Nat.eq_dec i s) as [->|Hi]; [now rewrite Hs'|now rewrite Hne]. }
        split; [|split; [|split]].
        + apply clear_step; try assumption. intros j Hj Hp Hu. assert (ncls (hget h0 j) = CSec) as Hcj by (now apply (kind_cls true); apply Hu).
          destruct (F4 j ltac:(apply (in_children h0 cs cn HA); auto) Hcj). now apply (good h1).
        + split.
          * intros i Hi. rewrite Hcp. now apply F2.
          * intros i Hi. destruct (Nat.eq_dec i s) as [->|Hne']; [now rewrite Hs'|]. rewrite Hne by assumption. now apply F2.
        + intros x Hx. rewrite Hcp. auto.
        + now rewrite Hs'.
      - split; [assumption|]. split; [apply mono2_refl|]. split; [reflexivity|assumption]. }
    change (fold_left (fun acc e => match acc with
              | ROk h' => if itype_eqb (n_type (hget h' e)) SECTION && (n_copy (hget h' e) || n_deep_resolve (hget h' e))
                          then resolve_section f ts h' e (prev ++ [s]) else ROk h'
              | r => r end) (n_elements (hget h s)) (ROk h)) with (rfold G (n_elements (hget h s)) (ROk h)).
    destruct (if n_deep_resolve (hget h s) then _ else ROk h) as [h1|x h1| |]; try assumption.
    destruct Hsub as (S1 & S2 & S3 & S4).
    assert (n_copy (hget h1 s) = n_copy (hget h s)) as Hcps by (apply S3; apply in_or_app; right; now left).
    destruct (n_copy (hget h1 s)) eqn:Ecp.
    2:{ split; [assumption|]. split; [assumption|]. split; [assumption|]. split; [assumption|]. intros x Hx. apply S3. apply in_or_app. now left. }
    assert (n_template (hget h0 s) <> None) as Htp.
    { pose proof (si_copy _ S1 s Ecp) as E. rewrite Hsec_s in E by now apply cls_not_elem. rewrite copy_template in E.
      destruct (n_template (hget h0 s)); [discriminate|discriminate]. }
    pose proof (template_of_spec h0 cs cn true ts h1 s Hix (proj2 (si_text _ S1) s) Hs ltac:(now apply (kind_cls true)) Htp) as Ht.
    destruct (template_of h1 ts s) as [t|].
    2:{ exists s. split; [assumption|apply rt_refl]. }
    assert (depends true h0 s t) as Hd by now left.
    destruct (template_lt _ _ _ _ Ht) as [_ Htl]. pose proof (template_neq _ _ _ _ Ht) as Hne.
    assert (ncls (hget h0 t) = CSec) as Hct.
    { destruct Ht as (k & _ & (_ & H & _) & _). now apply (kind_cls true) in H. }
    assert (match (if n_copy (hget h1 t) || n_deep_resolve (hget h1 t) then resolve_section f ts h1 t (prev ++ [s]) else ROk h1) with
      | ROk h2 => SecInv h2 /\ n_copy (hget h2 t) = false /\ n_deep_resolve (hget h2 t) = false /\ mono2 h1 h2 /\
                  forall x, In x (prev ++ [s]) -> n_copy (hget h2 x) = n_copy (hget h1 x)
      | RErr x h2 => section_error x /\ same_text h2
      | RKey => exists j, dangling true h0 j /\ clos_refl_trans nat (depends true h0) s j
      | RFuel => False
      end) as Htr.
    { destruct (n_copy (hget h1 t) || n_deep_resolve (hget h1 t)) eqn:Emk.
      - pose proof (Hdep h1 t S1 Htl Hct Hd) as Hr.
        destruct (resolve_section f ts h1 t (prev ++ [s])) as [h2|x h2| |]; cbn [section_result] in Hr; try assumption.
        destruct Hr as (j & Hj1 & Hj2). exists j. split; [assumption|]. eapply rt_trans; [apply rt_step; exact Hd|assumption].
      - apply orb_false_iff in Emk as [E1 E2]. split; [assumption|]. split; [assumption|]. split; [assumption|]. split; [apply mono2_refl|reflexivity]. }
    destruct (if n_copy (hget h1 t) || n_deep_resolve (hget h1 t) then _ else ROk h1) as [h2|x h2| |]; try assumption.
    destruct Htr as (T1 & T2 & T3 & T4 & T5).
    assert (n_copy (hget h2 s) = true) as Hc2 by (rewrite T5; [assumption|apply in_or_app; right; now left]).
    destruct (consol_step h2 s t T1 Hs Hc Hc2 Ht T2 T3) as (h3 & -> & HI3 & Hd3 & Hcs3 & Hci3).
    cbn [section_result]. split; [assumption|]. split; [assumption|]. split; [rewrite Hd3; now apply T4|]. split.
    - eapply mono2_trans; [eassumption|]. eapply mono2_trans; [eassumption|]. split.
      + intros i Hi. destruct (Nat.eq_dec i s) as [->|Hi']; [assumption|]. now rewrite Hci3.
      + intros i Hi. now rewrite Hd3.
    - intros x Hx. rewrite Hci3 by (intros ->; contradiction). rewrite T5, S3 by (apply in_or_app; now left). reflexivity.
  Qed.

  (** * All section copies *)

  Definition sections_done (h : heap) : Prop :=
    same_text h /\
    (forall i, ncls (hget h0 i) <> CSec -> hget h i = hget hs i) /\
    (forall i, n_type (hget h i) = n_type (hget hs i)) /\
    (forall i, ncls (hget h0 i) = CSec -> sheltered i -> settled i (cleared (hget h i))).

  Theorem sections_phase :
    match resolve_table PSectionNotFound (fun h s => resolve_section (S (length h0)) ts h s []) ts hs with
    | ROk h => sections_done h /\ (forall i, ~ dangling true h0 i) /\ (forall i t, template_is true h0 i t -> Good t)
    | RErr x h => section_error x /\ same_text h
    | RKey => dangling_chain h0 true
    | RFuel => False
    end.
  Proof.
    pose proof Hix as (I1 & I2 & I3 & I4).
    pose proof (table_ok SecInv (fun x h => section_error x /\ same_text h) (dangling_chain h0 true) PSectionNotFound
      (fun h s => resolve_section (S (length h0)) ts h s []) ts hs SecInv_start) as HT.
    assert (forall h k tg t c, In (k, (tg, Some t)) ts -> In c tg -> SecInv h -> n_copy (hget h c) = true ->
      one_ok SecInv (fun x h => section_error x /\ same_text h) (dangling_chain h0 true) h c (resolve_section (S (length h0)) ts h c [])) as H1.
    { intros h k tg t c Hin Hc HI Hcp. destruct (I3 _ _ _ Hin) as (_ & Hcc & Hslot). apply Hcc in Hc.
      pose proof Hc as (Hcl & Hck & Hct). apply (kind_cls true) in Hck.
      pose proof (resolve_section_ok (S (length h0)) h c [] HI Hcl Hck ltac:(constructor) ltac:(intros ? []) I ltac:(cbn; lia)) as Hr.
      destruct (resolve_section (S (length h0)) ts h c []) as [h'|x h'| |] eqn:Er; cbn [section_result one_ok] in *.
      - destruct Hr as (R1 & R2 & R3 & [R4 _] & R5). auto.
      - assumption.
      - destruct Hr as (j & Hj & Hrd). exists c, j. split; [|assumption].
        apply clos_rt_rt1n in Hrd. inversion Hrd as [|y z Hy Hz]; subst.
        + exfalso. destruct Hj as (k' & (_ & _ & Hk') & Hno). assert (k' = k) as -> by congruence.
          destruct Hslot as [Hsl _]. now apply (Hno t).
        + apply clos_rt1n_rt in Hz. clear - Hy Hz. apply clos_rt_rtn1 in Hz. induction Hz as [|z w Hzw Hz IH].
          * now apply t_step.
          * eapply t_trans; [exact IH|now apply t_step].
      - assumption. }
    assert (forall h k tg, In (k, (tg, None)) ts -> SecInv h -> section_error (PSectionNotFound (hd 0 tg)) /\ same_text h) as H2.
    { intros h k tg Hin HI. destruct (I3 _ _ _ Hin) as (Hne & Hcc & Hslot). split; [|apply HI].
      apply se_missing. exists k. split; [|assumption]. apply Hcc. destruct tg; [contradiction|now left]. }
    specialize (HT H1 H2). destruct (resolve_table _ _ ts hs) as [h|x h| |]; try assumption.
    destruct HT as (HI & Hm & Hd).
    assert (forall i, ncls (hget h0 i) = CSec -> n_copy (hget h i) = false) as Hall.
    { intros i Hc. destruct (n_copy (hget h i)) eqn:Ei; [|reflexivity]. pose proof (si_copy _ HI i Ei) as E.
      rewrite Hsec_s in E by now apply cls_not_elem. rewrite copy_template in E.
      destruct (n_template (hget h0 i)) as [k|] eqn:Ek; [|discriminate].
      destruct (Nat.lt_ge_cases i (length h0)) as [Hi|Hi]; [|unfold hget in Hc; rewrite nth_overflow in Hc by assumption; discriminate].
      destruct (I4 k i) as (tg & slot & Hin & Hci); [split; [assumption|]; split; [now apply (kind_cls true)|assumption]|].
      destruct (Hd _ _ _ Hin) as [_ Hd']. rewrite (Hd' i Hci) in Ei. discriminate. }
    split; [|split].
    - split; [apply HI|]. split; [apply HI|]. split; [apply HI|]. intros i Hc Hsh. apply HI; auto.
    - intros i (k & Hc & Hno). destruct (I4 k i Hc) as (tg & slot & Hin & Hci). destruct (Hd _ _ _ Hin) as [Hs _].
      destruct slot as [t|]; [|congruence]. destruct (I3 _ _ _ Hin) as (_ & _ & Hsl). now apply (Hno t).
    - intros i t Ht. apply (si_tpl _ HI i t); [|assumption]. apply Hall. destruct Ht as (k & (_ & Hk & _) & _). now apply (kind_cls true) in Hk.
  Qed.
End Sections.
