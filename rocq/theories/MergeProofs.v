(** MergeProofs: the elements of sections inside and outside of deep copies (C25). *)
From Coq Require Import Relations.
From Verif Require Import Base Types Scan Analyzer TokenStep HeapFacts AnalyzerInv AnalyzerLoop SpecTree AnalyzerTree
  AnalyzerFinal AnalyzerCopies Resolver SpecResolve ResolverIndex ResolverFields ResolverSections ResolverFinal
  Reporter Errors Context SpecText SpecRead Reads ReadOps ReadLinks ParseOutcome SpecApi ApiDoc ApiInv SpecLinks ResolverLinks QueryProofs
  SpecMerge ResolverMerge CopiesProofs.

Section Merged.
  Context (h0 : heap) (cs cn : list (text * list nat)) (HA : Analysed h0 cs cn) (r : heap) (Hres : resolve h0 cs cn = ROk r) (HR : Resolved h0 r).

  Lemma fields i : n_elements (hget r i) = n_elements (hget h0 i) /\ n_key (hget r i) = n_key (hget h0 i) /\ n_deep_copy (hget r i) = n_deep_copy (hget h0 i).
  Proof. pose proof (res_text h0 r HR i) as H. unfold text_part in H. repeat split; congruence. Qed.
  Lemma sole_res p i : sole r p i <-> sole h0 p i.
  Proof.
    split; intros (l1 & l2 & E & S & N); exists l1, l2; (split; [|split]).
    - now rewrite <- (proj1 (fields p)).
    - now apply (section_res h0 r HR).
    - intros x Hx. rewrite <- (proj1 (proj2 (fields x))), <- (proj1 (proj2 (fields i))). auto.
    - now rewrite (proj1 (fields p)).
    - now apply (section_res h0 r HR).
    - intros x Hx. rewrite (proj1 (proj2 (fields x))), (proj1 (proj2 (fields i))). auto.
  Qed.
  Lemma partner_res s t i j : partner r s t i j <-> partner h0 s t i j.
  Proof. unfold partner. now rewrite !sole_res, (proj1 (proj2 (fields i))), (proj1 (proj2 (fields j))). Qed.
  Lemma pairs_res s t i j : pairs r s t i j <-> pairs h0 s t i j.
  Proof. split; induction 1 as [s t|s t a b i j H _ IH]; try constructor; apply partner_res in H; eapply pa_inner; eassumption. Qed.
  Lemma gives_res a u i j : gives r a u i j <-> gives h0 a u i j.
  Proof.
    unfold gives. rewrite (template_res h0 r HR), (proj2 (proj2 (fields a))). destruct (n_deep_copy (hget h0 a)); [now rewrite pairs_res|tauto].
  Qed.
  Lemma gives_draws a u i j : gives r a u i j -> draws_on r i j.
  Proof.
    intro Hg. apply gives_res in Hg as [Ht H]. apply (draws_res h0 r HR). destruct (n_deep_copy (hget h0 a)) eqn:Ed.
    - right. assert (merged h0 a u) as Hm by now apply mg_copy. destruct (template_lt _ _ _ _ Ht) as [La Lu]. clear Ht Ed. revert La Lu Hm.
      induction H as [s t|s t a b i j (Ha & Hb & K) H IH]; intros Ls Lt Hm; [assumption|].
      destruct (sole_child h0 cs cn HA s a Ls Ha) as (Sa & Pa & _). destruct (sole_child h0 cs cn HA t b Lt Hb) as (Sb & Pb & _).
      apply IH; [apply Sa|apply Sb|]. eapply mg_inner; try eassumption; now apply sec_kind.
    - destruct H as [-> ->]. now left.
  Qed.

  Lemma heir_out a u e t : heir r a u e t -> gives h0 a u e t /\ n_copy (hget r a) = false /\ outermost h0 r a e.
  Proof.
    intros [Hg Ho]. apply gives_res in Hg. destruct (resolved_merge h0 cs cn r HA Hres) as [_ Hd].
    split; [assumption|]. split; [now apply Hd, (gives_in h0 cs cn HA a u e t)|]. intros a' u' j Hab Hg'. exfalso.
    apply (Ho a' u' j); [now apply (encloses_res h0 r HR)|now apply gives_res].
  Qed.

  Lemma merged_elements e L : merged_list r e L -> is_section (hget r e) -> e < length h0 -> element_list r e L.
  Proof.
    destruct (resolved_merge h0 cs cn r HA Hres) as [HM Hd].
    induction 1 as [e Ho|e t l l' (a & u & Hh & Hc) Hl IH Hw]; intros Hs Le.
    - assert (sec h0 e) as Se by (apply sec_kind; split; [assumption|now apply (section_res h0 r HR)]).
      apply li_own. apply (mi_none h0 r HM e Se). intros a u j Hg. exfalso. apply (Ho a u j). now apply gives_res.
    - destruct (heir_out a u e t Hh) as (Hg & Hcp & Hout). destruct (gives_in h0 cs cn HA a u e t Hg) as (_ & _ & _ & _ & Se & St).
      specialize (IH ltac:(apply (section_res h0 r HR); now apply sec_kind) (proj1 St)).
      unfold own_elements in *. destruct (n_elements (hget r e)) as [|x own] eqn:Eo.
      + rewrite (proj1 (fields e)) in Eo. rewrite (proj1 (fields t)) in Hc. apply (without_nil r) in Hw. subst l'. cbn [app].
        assert (n_mirror (hget r e) = Some t \/ n_mirror (hget r e) = Some (dest r t)) as Hm.
        { apply (mi_mirror h0 r HM a u e t Hg Hcp Hout Eo). destruct Hc as [Hc|[Hc|Hc]]; [now destruct Hc|now left|right; left].
          intros a' u' j' Hab Hg'. apply (Hc a' u' j'); [now apply (encloses_res h0 r HR)|now apply gives_res]. }
        destruct Hm as [Hm|Hm]; [now apply (li_mirror r e t)|]. unfold dest in Hm. destruct (n_mirror (hget r t)) as [m|] eqn:Em; [|now apply (li_mirror r e t)].
        apply (li_mirror r e m); [assumption|]. inversion IH as [? [G _]|? ? ? G G2|? ? ? ? [G1 G2]]; subst; [congruence| |congruence].
        unfold mirrors in G. replace m with m0 by congruence. assumption.
      + assert (n_elements (hget h0 e) <> []) as He by (rewrite <- (proj1 (fields e)); congruence).
        rewrite <- Eo. apply (li_extend r e t l l'); [|assumption|unfold own_elements; now rewrite Eo].
        split; [now apply (mi_pure h0 r HM e Se)|]. now apply (mi_extend h0 r HM a u).
  Qed.

  (** every section is on its own or an heir *)
  Lemma own_or_heir e : is_section (hget r e) -> e < length h0 -> on_its_own r e \/ exists a u t, heir r a u e t.
  Proof.
    intros Hs Le. destruct (resolved_merge h0 cs cn r HA Hres) as [HM Hd].
    assert (sec h0 e) as Se by (apply sec_kind; split; [assumption|now apply (section_res h0 r HR)]).
    assert (forall a u j, gives h0 a u e j -> n_copy (hget r a) = true -> False) as Hno.
    { intros a u j Hg Hc. destruct (gives_in h0 cs cn HA a u e j Hg) as (Ca & _). rewrite (Hd a Ca) in Hc. discriminate. }
    destruct (mi_who h0 r HM e Se) as [H|(a & u & t & Hg & Hc & Ho)].
    - left. intros a u j Hg. apply gives_res in Hg. eapply Hno; eauto.
    - right. exists a, u, t. split; [now apply gives_res|]. intros a' u' j Hab Hg'. apply gives_res in Hg'. apply (Hno a' u' j Hg').
      apply (Ho a' u' j); [now apply (encloses_res h0 r HR)|assumption].
  Qed.
  Lemma heir_fun a u e t a' u' t' : heir r a u e t -> heir r a' u' e t' -> t = t'.
  Proof.
    intros [H1 H2] [H3 H4]. apply gives_res in H1 as G1. apply gives_res in H3 as G3.
    destruct (gives_in h0 cs cn HA _ _ _ _ G1) as (_ & _ & I1 & _). destruct (gives_in h0 cs cn HA _ _ _ _ G3) as (_ & _ & I3 & _).
    destruct (comparable h0 a a' e I1 I3) as [->|[H|H]].
    - now apply (gives_fun h0 cs cn HA a' u e t u' t').
    - exfalso. apply (encloses_res h0 r HR) in H. now apply (H4 a u t H).
    - exfalso. apply (encloses_res h0 r HR) in H. now apply (H2 a' u' t' H).
  Qed.
  Lemma merged_keys e l : merged_list r e l -> forall x, In x l -> n_key (hget r x) <> None.
  Proof.
    pose proof (doc_of h0 cs cn HA r HR) as HD. intro Hl. induction Hl as [e Ht|e t l l' Ht Hl IH Hw]; intros x Hx.
    - now apply (doc_elements r HD e x Hx).
    - apply in_app_or in Hx as [Hx|Hx]; [now apply (doc_elements r HD e x Hx)|]. apply IH. clear - Hw Hx.
      induction Hw as [|y l l' H Hw IH|y l l' H Hw IH]; [destruct Hx| |right; auto]. destruct Hx as [->|Hx]; [now left|right; auto].
  Qed.
  Lemma merged_fun e L : merged_list r e L -> forall L', merged_list r e L' -> L = L'.
  Proof.
    pose proof (doc_of h0 cs cn HA r HR) as HD.
    induction 1 as [e Ht|e t l l' Ht Hl IH Hw]; intros L' H'; inversion H' as [e' Ht'|e' t' k k' Ht' Hl' Hw']; subst.
    - reflexivity.
    - exfalso. destruct Ht' as (a & u & (Hg & _) & _). now apply (Ht a u t').
    - exfalso. destruct Ht as (a & u & (Hg & _) & _). now apply (Ht' a u t).
    - destruct Ht as (a & u & Hh & _), Ht' as (a' & u' & Hh' & _). assert (t' = t) as -> by (eapply heir_fun; eassumption).
      assert (k = l) as -> by (symmetry; now apply IH). f_equal.
      apply (without_fun r (own_elements r e) l); [intros x Hx; now apply (doc_elements r HD e x Hx)|now apply (merged_keys t)|assumption..].
  Qed.
  (** what lies on the way to a section that a merge pairs is paired, too *)
  Lemma pairs_through s t i j : s < length h0 -> t < length h0 -> pairs h0 s t i j -> forall x, above h0 s x -> i = x \/ above h0 x i ->
    exists y, pairs h0 s t x y /\ n_key (hget h0 x) = n_key (hget h0 y) /\ sec h0 y.
  Proof.
    intros Ls Lt H. revert Ls Lt. induction H as [s t|s t a b i j Hp H IH]; intros Ls Lt x Hx Hi.
    - exfalso. pose proof (fun a i => above_lt h0 a i (an_s _ _ _ HA)) as Hlt. destruct Hi as [<-|Hi]; [specialize (Hlt s s Ls Hx); lia|].
      pose proof (Hlt x s Ls Hi). specialize (Hlt s x ltac:(lia) Hx). lia.
    - pose proof Hp as (Ha & Hb & K). destruct (sole_child h0 cs cn HA s a Ls Ha) as (Sa & Pa & La). destruct (sole_child h0 cs cn HA t b Lt Hb) as (Sb & Pb & Lb).
      destruct (pairs_in h0 cs cn HA a b i j (proj1 Sa) (proj1 Sb) H) as (Ia & _).
      destruct (comparable h0 a x i Ia Hi) as [<-|[E|E]].
      + exists b. split; [eapply pa_inner; [eassumption|constructor]|auto].
      + destruct (IH (proj1 Sa) (proj1 Sb) x E Hi) as (y & Hy1 & Hy2). exists y. split; [eapply pa_inner; eassumption|assumption].
      + exfalso. apply (above_inv _ _ _ _ Pa) in E. pose proof (fun a i => above_lt h0 a i (an_s _ _ _ HA)) as Hlt. destruct E as [->|E].
        * specialize (Hlt s s Ls Hx). lia.
        * pose proof (Hlt x s Ls E). specialize (Hlt s x ltac:(lia) Hx). lia.
  Qed.
  Lemma heirs_take : well_founded_copies r -> forall a u e t, heir r a u e t -> takes r e t.
  Proof.
    intros Hw a u e t Hh. exists a, u. split; [assumption|]. right. right. intros a' u' j Hab Hg'. apply gives_res in Hg'.
    destruct Hh as [Hg _]. apply gives_res in Hg. destruct (gives_in h0 cs cn HA a u e t Hg) as (_ & Su & _ & Tu & _).
    apply (encloses_res h0 r HR) in Hab. pose proof Hg' as [Ht' Hp'].
    assert (a' <> t) as Hne.
    { intros ->. pose proof (fun a i => above_lt h0 a i (an_s _ _ _ HA)) as Hlt. destruct Tu as [->|Tu]; [specialize (Hlt u u (proj1 Su) Hab); lia|].
      pose proof (Hlt t u (proj1 Su) Hab). specialize (Hlt u t ltac:(destruct Su; lia) Tu). lia. }
    destruct (n_deep_copy (hget h0 a')) eqn:Ed; [|destruct Hp'; congruence]. destruct (template_lt _ _ _ _ Ht') as [La' Lu'].
    destruct (pairs_through a' u' t j La' Lu' Hp' u Hab Tu) as (v & Hv & Kv & Sv).
    assert (draws_on r u v) as D1 by (apply (gives_draws a' u' u v); apply gives_res; split; [assumption|now rewrite Ed]).
    destruct (proj1 Hg) as (k & _ & (Lu & Ku & Nu & Tk) & Un).
    destruct (Nat.eq_dec v u) as [->|Hvu]; [apply (Hw u); now apply t_step|].
    assert (n_template (hget h0 v) = Some k) as Hvt.
    { destruct (n_template (hget h0 v)) as [k'|] eqn:Ek.
      - destruct (list_eq_dec N.eq_dec k' k) as [->|Hk]; [reflexivity|]. exfalso. apply Hvu, Un. split; [apply Sv|]. split; [now apply sec_kind|]. split; [congruence|rewrite Ek; congruence].
      - exfalso. apply Hvu, Un. split; [apply Sv|]. split; [now apply sec_kind|]. split; [congruence|rewrite Ek; discriminate]. }
    assert (template_is true h0 v u) as D2.
    { exists k. split; [split; [apply Sv|split; [now apply sec_kind|assumption]]|]. split; [now repeat split|assumption]. }
    apply (Hw u). eapply t_trans; [apply t_step; exact D1|]. apply t_step. left. now apply (template_res h0 r HR).
  Qed.
  Lemma merged_total : well_founded_copies r ->
    forall e, is_section (hget r e) -> e < length h0 -> exists L, merged_list r e L.
  Proof.
    intros Hw e. pose proof (heirs_take Hw) as Ht. pose proof (doc_of h0 cs cn HA r HR) as HD.
    assert (Acc (fun b a => clos_trans nat (draws_on r) a b) e) as Ha.
    { apply (finite_acc _ (length h0)).
      - intros i j H. apply clos_trans_tn1 in H. assert (forall y, draws_on r y j -> j < length h0) as G.
        { intros y Hy. rewrite <- (res_len h0 r HR). destruct Hy as [Hy|Hy]; [apply (template_lt _ _ _ _ Hy)|].
          destruct Hy as [a b Hy _|s t a b _ _ Hb _ _ _]; [apply (template_lt _ _ _ _ Hy)|]. rewrite (res_len h0 r HR). apply in_range.
          destruct (res_fields h0 r HR b) as (_ & _ & _ & _ & _ & _ & _ & _ & P & _). congruence. }
        destruct H as [H|y z H _]; eapply G; eassumption.
      - intros i H. apply (Hw i). clear - H. revert H. assert (forall a b, clos_trans nat (clos_trans nat (draws_on r)) a b -> clos_trans nat (draws_on r) a b) as G.
        { induction 1; [assumption|eapply t_trans; eassumption]. } apply G. }
    induction Ha as [e _ IH]. intros Hs Le. destruct (own_or_heir e Hs Le) as [Ho|(a & u & t & Hh)]; [eexists; now apply ml_own|].
    pose proof (proj1 Hh) as Hg. apply gives_res in Hg as Hg0. destruct (gives_in h0 cs cn HA _ _ _ _ Hg0) as (_ & _ & _ & _ & _ & St).
    destruct (IH t) as (l & Hl); [apply t_step; eapply gives_draws; eassumption|apply (section_res h0 r HR); now apply sec_kind|apply St|].
    destruct (without_total r (own_elements r e) l) as (l' & Hl'); [intros x Hx; now apply (doc_elements r HD e x Hx)|now apply (merged_keys t)|].
    eexists. eapply ml_over; [eapply Ht; eassumption|eassumption..].
  Qed.
  Lemma root_own e : ~ is_section (hget r e) -> on_its_own r e.
  Proof. intros Hn a u j Hg. apply gives_res in Hg. destruct (gives_in h0 cs cn HA _ _ _ _ Hg) as (_ & _ & _ & _ & Se & _). apply Hn. apply (section_res h0 r HR). now apply sec_kind. Qed.
End Merged.
