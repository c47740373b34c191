(** ResolverRemarks: the comments of sections once all copies are resolved (C49). *)
From Coq Require Import Relations.
From Verif Require Import Base Types Scan Analyzer TokenStep HeapFacts AnalyzerInv AnalyzerLoop SpecTree AnalyzerTree
  AnalyzerFinal AnalyzerCopies Resolver SpecResolve ResolverIndex ResolverFields ResolverSections ResolverFinal SpecLinks ResolverLinks
  SpecRead SpecApi SpecMerge ResolverMerge SpecRemarks.

Section Remarks.
  Context (h0 : heap) (cs cn : list (text * list nat)) (HA : Analysed h0 cs cn).
  Notation sec := (sec h0).
  Notation els i := (n_elements (hget h0 i)).
  Notation gives := (gives h0).
  Notation com h i := (n_comments (hget h i)).
  Definition orelse (a b : option (list leaf)) : option (list leaf) := match a with Some l => Some l | None => b end.

  Lemma inherit_com h s t i : s < length h -> com (inherit_comments h s t) i = if i =? s then orelse (com h s) (com h t) else com h i.
  Proof.
    intro Hs. unfold inherit_comments, orelse. destruct (Nat.eqb_spec i s) as [->|Hi].
    - destruct (com h t) as [l|] eqn:Et; destruct (com h s) as [l'|] eqn:Es; rewrite ?Es; try reflexivity. now rewrite hget_hupd.
    - destruct (com h t) as [l|]; [|reflexivity]. destruct (com h s) as [l'|]; [reflexivity|]. now rewrite hget_set_neq by congruence.
  Qed.
  Lemma hupd_com h s f i : (forall n, n_comments (f n) = n_comments n) -> com (hupd h s f) i = com h i.
  Proof. intro Hf. destruct (hupd_cases h s f i) as [->|[-> ->]]; auto. Qed.

  Definition passed (h h' : heap) (i j : nat) : Prop := com h' i = orelse (com h i) (com h j).

  (** what is paired is not itself given anything by the same merge *)
  Lemma consolidate_comments fuel : forall h s t deep h', same_text h0 h -> sec s -> sec t -> s <> t ->
    (forall i j, ov h0 deep s t i j -> forall y, ~ ov h0 deep s t j y) ->
    consolidate_sections fuel h s t deep = Some h' ->
    same_text h0 h' /\
    forall i, (exists j, ov h0 deep s t i j /\ passed h h' i j) \/ (forall j, ~ ov h0 deep s t i j) /\ com h' i = com h i.
  Proof.
    induction fuel as [|f IH]; intros h s t deep h' HT Hs Ht Hne Hq; cbn [consolidate_sections]; [discriminate|].
    assert (s < length h) as Ls by (rewrite (proj1 HT); apply Hs).
    pose proof (inherit_same h0 h s t HT) as HT1. pose proof (fun i => inherit_com h s t i Ls) as HC1. set (h1 := inherit_comments h s t) in *. clearbody h1.
    assert (n_elements (hget h1 s) = els s) as Es by (apply text_elements; apply HT1).
    assert (ov h0 deep s t s t) as Hst by (unfold ov; destruct deep; [constructor|auto]).
    assert (com h1 s = orelse (com h s) (com h t)) as Cs by (rewrite HC1, Nat.eqb_refl; reflexivity).
    assert (forall i, i <> s -> com h1 i = com h i) as Cn by (intros i Hi; rewrite HC1; destruct (Nat.eqb_spec i s); [contradiction|reflexivity]).
    rewrite Es. destruct (els s) as [|x0 l0] eqn:Eel.
    - assert (forall d, Some (hupd h1 s (set_mirror d)) = Some h' -> same_text h0 h' /\
        forall i, (exists j, ov h0 deep s t i j /\ passed h h' i j) \/ (forall j, ~ ov h0 deep s t i j) /\ com h' i = com h i) as G.
      { intros d [= <-]. split; [now apply text_upd|]. intro i. destruct (Nat.eq_dec i s) as [->|Hi].
        - left. exists t. split; [assumption|]. unfold passed. now rewrite hupd_com.
        - right. split; [|rewrite hupd_com by reflexivity; now apply Cn].
          intros j Hj. unfold ov in Hj. destruct deep; [apply pairs_empty in Hj; [|assumption]|]; now destruct Hj. }
      unfold mirror. destruct (n_mirror (hget h1 t)); apply G.
    - rewrite <- Eel. clear x0 l0 Eel Es.
      assert (same_text h0 (hupd h1 s (set_extend (Some t)))) as HT2 by now apply text_upd.
      assert (forall i, com (hupd h1 s (set_extend (Some t))) i = com h1 i) as C2 by (intro i; now rewrite hupd_com).
      set (h2 := hupd h1 s (set_extend (Some t))) in *. clearbody h2.
      destruct deep; cbn [negb].
      2:{ intros [= <-]. split; [assumption|]. intro i. destruct (Nat.eq_dec i s) as [->|Hi].
          - left. exists t. split; [assumption|]. unfold passed. now rewrite C2.
          - right. split; [|rewrite C2; now apply Cn]. intros j [E _]. contradiction. }
      rewrite (text_elements _ _ (proj2 HT2 t)). cbn [ov] in *.
      assert (forall l h2 h', (forall a b, In (a, b) l -> partner h0 s t a b) -> same_text h0 h2 ->
        fold_left (fun acc st => match acc with Some h' => consolidate_sections f h' (fst st) (snd st) true | None => None end) l (Some h2) = Some h' ->
        same_text h0 h' /\
        forall i, (exists a b j, In (a, b) l /\ pairs h0 a b i j /\ passed h2 h' i j) \/
                  (forall a b j, In (a, b) l -> ~ pairs h0 a b i j) /\ com h' i = com h2 i) as Fold.
      { clear h h' HT Ls h1 HT1 HC1 Cs Cn h2 HT2 C2.
        induction l as [|[a b] l IHl]; intros h2 h' Hl HT2; cbn [fold_left fst snd].
        - intros [= <-]. split; [assumption|]. intro i. right. split; [intros ? ? ? []|reflexivity].
        - pose proof (Hl a b ltac:(now left)) as Hab. pose proof Hab as (Ha & Hb & _).
          destruct (sole_child h0 cs cn HA s a (proj1 Hs) Ha) as (Sa & Pa & La). destruct (sole_child h0 cs cn HA t b (proj1 Ht) Hb) as (Sb & Pb & Lb).
          destruct (consolidate_sections f h2 a b true) as [h3|] eqn:E3.
          2:{ intro E. exfalso. clear - E. induction l as [|x l IHl]; cbn [fold_left] in E; [discriminate|auto]. }
          intro E. apply IH in E3; try assumption; [|intros <-; congruence|].
          2:{ intros i j Hij y Hy. apply (Hq i j) with (y := y); eapply pa_inner; eassumption. }
          destruct E3 as (T3 & F3). cbn [ov] in F3.
          destruct (IHl h3 h' ltac:(intros; apply Hl; now right) T3 E) as (T4 & F4).
          split; [assumption|]. intro i.
          assert (forall j, (exists i, pairs h0 s t i j) -> com h3 j = com h2 j) as Hd.
          { intros j (x & Hx). destruct (F3 j) as [(y & Hy & _)|[_ Hk]]; [|assumption]. exfalso. apply (Hq x j Hx y). eapply pa_inner; eassumption. }
          destruct (F3 i) as [(j & Hj & HL)|[Hn HK]]; destruct (F4 i) as [(a' & b' & j' & Hin & Hj' & HL')|[Hn' HK']].
          + left. pose proof (Hl a' b' ltac:(now right)) as Hab'. exists a, b, j. split; [now left|]. split; [assumption|].
            pose proof (pa_inner h0 s t a b i j Hab Hj) as H1. pose proof (pa_inner h0 s t a' b' i j' Hab' Hj') as H2.
            pose proof (pairs_fun h0 cs cn HA s t i j j' (proj1 Hs) (proj1 Ht) H1 H2) as <-.
            unfold passed in *. rewrite HL', HL, Hd by (now exists i). unfold orelse. destruct (com h2 i); [reflexivity|]. now destruct (com h2 j).
          + left. exists a, b, j. split; [now left|]. split; [assumption|]. unfold passed in *. congruence.
          + left. exists a', b', j'. split; [now right|]. split; [assumption|]. unfold passed in *. rewrite HL', HK, Hd; [reflexivity|].
            exists i. apply (pa_inner h0 s t a' b'); [apply Hl; now right|assumption].
          + right. split; [|congruence]. intros a' b' j [[= <- <-]|Hin]; [apply Hn|now apply Hn']. }
      intro E. destruct (Fold (mergers (merge_templates h2 (els t) (merge_sections h2 (els s)))) h2 h') as (T3 & F3); [|assumption|exact E|].
      { intros a b Hin. apply (mergers_partner h0 cs cn HA h2) in Hin; try assumption; [apply Hs|apply Ht]. }
      split; [assumption|]. intro i. destruct (Nat.eq_dec i s) as [->|Hi].
      + left. exists t. split; [constructor|]. destruct (F3 s) as [(a & b & j & Hin & Hj & _)|[_ HK]].
        * exfalso. apply (mergers_partner h0 cs cn HA h2) in Hin; try assumption; [|apply Hs|apply Ht].
          apply (pairs_not_up h0 cs cn HA s t a b j); try assumption; [apply Hs|apply Ht].
        * unfold passed. congruence.
      + destruct (F3 i) as [(a & b & j & Hin & Hj & HL)|[Hn HK]].
        * left. exists j. assert (pairs h0 s t i j) as Hij.
          { apply (mergers_partner h0 cs cn HA h2) in Hin; try assumption; [|apply Hs|apply Ht]. eapply pa_inner; eassumption. }
          split; [assumption|]. unfold passed in *. rewrite HL, !C2, (Cn i Hi), (Cn j); [reflexivity|]. intros ->. apply (Hq i s Hij t). constructor.
        * right. split; [|rewrite HK, C2; now apply Cn]. intros j Hj. inversion Hj as [|? ? a b ? ? Hab Hj']; subst; [contradiction|].
          apply (Hn a b j); [|assumption]. apply (mergers_partner h0 cs cn HA h2); try assumption; [apply Hs|apply Ht].
  Qed.

  (** no copy around a copied section gives what it is copied for anything *)
  Context (Quiet : forall a u i j, gives a u i j -> forall a' u' j', above h0 a' u -> ~ gives a' u' j j').

  Record CInv (h : heap) : Prop := {
    ci_own : forall i l, sec i -> com h0 i = Some l -> com h i = Some l;
    ci_none : forall a u i j, gives a u i j -> n_copy (hget h a) = false -> com h i = None -> com h j = None;
    ci_given : forall i l, sec i -> com h0 i = None -> com h i = Some l -> exists a u j, gives a u i j /\ n_copy (hget h a) = false /\ com h j = Some l /\
      forall a' u' j', above h0 a a' -> gives a' u' i j' -> com h j' = None
  }.

  Lemma remarks_clear h s : MInv h0 h -> CInv h -> CInv (hupd h s (set_deep_resolve false)).
  Proof.
    intros _ HI. assert (forall i, com (hupd h s (set_deep_resolve false)) i = com h i /\ n_copy (hget (hupd h s (set_deep_resolve false)) i) = n_copy (hget h i)) as E.
    { intro i. destruct (hupd_cases h s (set_deep_resolve false) i) as [->|[-> ->]]; split; reflexivity. }
    constructor.
    - intros i l. rewrite (proj1 (E i)). apply HI.
    - intros a u i j Hg. rewrite (proj2 (E a)), (proj1 (E i)), (proj1 (E j)). now apply (ci_none h HI a u).
    - intros i l. rewrite (proj1 (E i)). intros Si H0 H. destruct (ci_given h HI i l Si H0 H) as (a & u & j & H1 & H2 & H3 & H4).
      exists a, u, j. rewrite (proj1 (E j)), (proj2 (E a)). split; [assumption|]. split; [assumption|]. split; [assumption|].
      intros a' u' j' Hab Hg. rewrite (proj1 (E j')). now apply (H4 a' u').
  Qed.

  Lemma remarks_step h s t h3 : MInv h0 h -> CInv h -> sec s -> template_is true h0 s t -> n_copy (hget h s) = true -> n_deep_resolve (hget h s) = false ->
    n_copy (hget h t) = false -> n_deep_resolve (hget h t) = false -> consolidate_sections (S (length h)) h s t (n_deep_copy (hget h s)) = Some h3 ->
    CInv (hupd h3 s (set_copy false)).
  Proof.
    intros HM HI Ss Ht Hcs Hds Hct Hdt HC. set (h' := hupd h3 s (set_copy false)). pose proof (mi_text h0 h HM) as HT. pose proof (template_neq _ _ _ _ Ht) as Hne.
    assert (sec t) as St by (destruct Ht as (k & _ & (L & K & _) & _); now apply sec_kind).
    assert (copier h0 s) as Cs by (split; [assumption|now apply template_copies in Ht]).
    assert (n_deep_copy (hget h s) = n_deep_copy (hget h0 s)) as Ed by (pose proof (proj2 HT s) as E; unfold text_part in E; congruence).
    rewrite Ed in HC.
    destruct (step_consolidate h0 cs cn HA h s t h3 HM Ss Ht Hcs Hds Hct Hdt ltac:(now rewrite Ed)) as (_ & Hs' & Hi' & _). fold h' in Hs', Hi'.
    assert (~ above h0 t s) as Hts by (intro Hab; rewrite (mi_deep h0 h HM t St Hdt s Cs Hab) in Hcs; discriminate).
    (* what a resolved copy gives does not change any more *)
    assert (forall a u i j, gives a u i j -> a = s \/ n_copy (hget h a) = false -> forall y, ~ gives s t j y) as Hstay.
    { intros a u i j Hg Hd y Hy. destruct (gives_in h0 cs cn HA a u i j Hg) as (_ & Su & _ & Ju & _). destruct (gives_in h0 cs cn HA s t j y Hy) as (_ & _ & Js & _).
      destruct (comparable h0 s u j Js Ju) as [E|[E|E]].
      - subst u. destruct Hd as [->|Hd]; [pose proof (template_fun h0 true s t s Ht (proj1 Hg)); congruence|].
        destruct (mi_done h0 h HM a s (proj1 Hg) Hd) as (_ & _ & G). rewrite (G Cs) in Hcs. discriminate.
      - now apply (Quiet a u i j Hg s t y).
      - destruct Hd as [->|Hd]; [pose proof (template_fun h0 true s t u Ht (proj1 Hg)); congruence|].
        destruct (mi_done h0 h HM a u (proj1 Hg) Hd) as (_ & G & _). rewrite (G s Cs E) in Hcs. discriminate. }
    assert (forall i j, ov h0 (n_deep_copy (hget h0 s)) s t i j <-> gives s t i j) as Hov by (intros i j; unfold SpecMerge.gives; tauto).
    destruct (fun H => consolidate_comments _ h s t _ h3 HT Ss St Hne H HC) as (T3 & F3).
    { intros i j Hij y Hy. apply Hov in Hij, Hy. now apply (Hstay s t i j Hij (or_introl eq_refl) y). }
    assert (forall i, (exists j, gives s t i j /\ passed h h' i j) \/ (forall j, ~ gives s t i j) /\ com h' i = com h i) as F.
    { intro i. unfold passed. replace (com h' i) with (com h3 i) by (symmetry; unfold h'; now rewrite hupd_com).
      destruct (F3 i) as [(j & Hj & HL)|[Hn HK]]; [left; exists j; split; [now apply Hov|assumption]|]. right. split; [|assumption].
      intros j Hj. apply (Hn j). now apply Hov. }
    assert (forall a u i j, gives a u i j -> a = s \/ n_copy (hget h a) = false -> com h' j = com h j) as Hsame.
    { intros a u i j Hg Hd. destruct (F j) as [(y & Hy & _)|[_ HK]]; [|assumption]. exfalso. now apply (Hstay a u i j Hg Hd y). }
    assert (forall i l, com h i = Some l -> com h' i = Some l) as Hkeep.
    { intros i l Hl. destruct (F i) as [(j & _ & HL)|[_ ->]]; [|assumption]. unfold passed in HL. rewrite HL, Hl. reflexivity. }
    constructor.
    - intros i l Si Hl. apply Hkeep. now apply HI.
    - intros a u i j Hg Hc Hi. assert (com h i = None) as Hi0 by (destruct (com h i) as [l|] eqn:E; [|reflexivity]; rewrite (Hkeep i l E) in Hi; discriminate).
      destruct (Nat.eq_dec a s) as [->|Has].
      + rewrite (Hsame s u i j Hg (or_introl eq_refl)). pose proof (template_fun h0 true s t u Ht (proj1 Hg)) as <-.
        destruct (F i) as [(j' & Hg' & HL)|[Hn _]]; [|exfalso; now apply (Hn j)]. destruct (gives_fun h0 cs cn HA s t i j t j' Hg Hg') as [_ <-].
        unfold passed in HL. rewrite Hi, Hi0 in HL. cbn in HL. congruence.
      + rewrite Hi' in Hc by assumption. rewrite (Hsame a u i j Hg (or_intror Hc)). now apply (ci_none h HI a u i j).
    - intros i l Si Hi0 Hl. destruct (com h i) as [l'|] eqn:Ei.
      + rewrite (Hkeep i l' Ei) in Hl. injection Hl as ->. destruct (ci_given h HI i l Si Hi0 Ei) as (a & u & j & H1 & H2 & H3 & H4).
        assert (a <> s) as Has by congruence. exists a, u, j. split; [assumption|]. split; [now rewrite Hi'|]. split; [rewrite (Hsame a u i j H1); auto|].
        intros a' u' j' Hab Hg. destruct (gives_in h0 cs cn HA a' u' i j' Hg) as (Ca' & _).
        rewrite (Hsame a' u' i j' Hg); [now apply (H4 a' u' j')|]. right. exact (proj1 (mi_done h0 h HM a u (proj1 H1) H2) a' Ca' Hab).
      + destruct (F i) as [(j & Hg & HL)|[_ HK]]; [|congruence]. unfold passed in HL. rewrite Hl, Ei in HL. cbn in HL.
        exists s, t, j. split; [assumption|]. split; [assumption|]. split; [rewrite (Hsame s t i j Hg); auto|].
        intros a' u' j' Hab Hg'. destruct (gives_in h0 cs cn HA a' u' i j' Hg') as (Ca' & _).
        assert (n_copy (hget h a') = false) as Hd by now apply (mi_deep h0 h HM s Ss Hds).
        rewrite (Hsame a' u' i j' Hg' (or_intror Hd)). now apply (ci_none h HI a' u' i j').
  Qed.

  Lemma remarks_start h : (forall i, sec i -> hget h i = hget h0 i) -> CInv h.
  Proof.
    intros E. constructor.
    - intros i l Si. now rewrite E.
    - intros a u i j Hg Hc. exfalso. destruct (gives_in h0 cs cn HA a u i j Hg) as ([Sa Ca] & _). rewrite E in Hc by assumption.
      destruct (an_pr _ _ _ HA a (proj1 Sa)) as (_ & _ & _ & _ & _ & _ & _ & Ec & _). rewrite Ec in Hc. destruct (n_template (hget h0 a)); [discriminate|congruence].
    - intros i l Si H H'. rewrite E in H' by assumption. congruence.
  Qed.

  Lemma resolved_comments h : resolve h0 cs cn = ROk h -> CInv h /\ forall c, copier h0 c -> n_copy (hget h c) = false.
  Proof.
    intro Hr. destruct (resolved_inv h0 cs cn h CInv HA) as (_ & H1 & H2); [|apply remarks_clear|apply remarks_step|assumption|now split].
    intros h1 _ E. now apply remarks_start.
  Qed.
End Remarks.
