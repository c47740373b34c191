(** CopiesProofs: section copies of a parsed document (C25, C26). *)
From Coq Require Import Relations.
From Verif Require Import Base Types Scan Analyzer TokenStep HeapFacts AnalyzerInv AnalyzerLoop SpecTree AnalyzerTree
  AnalyzerFinal AnalyzerCopies Resolver SpecResolve ResolverIndex ResolverFields ResolverSections ResolverFinal
  Reporter Errors Context SpecText SpecRead Reads ReadOps ReadLinks ParseOutcome SpecApi ApiDoc ApiInv SpecLinks ResolverLinks.

(** a relation on finitely many numbers without cycles is well-founded *)
Lemma finite_acc (R : nat -> nat -> Prop) n : (forall i j, R i j -> j < n) -> (forall i, ~ clos_trans nat R i i) ->
  forall i, Acc (fun b a => R a b) i.
Proof.
  intros Hn Hc.
  assert (forall k l i, n - length l <= k -> NoDup l -> (forall x, In x l -> x < n /\ (x = i \/ clos_trans nat R x i)) -> In i l -> Acc (fun b a => R a b) i) as G.
  { induction k as [|k IH]; intros l i Hk Hnd Hl Hi; constructor; intros j Hj.
    - exfalso. assert (NoDup (j :: l)) as Hnd'.
      { constructor; [|assumption]. intro Hin. apply (Hc j). destruct (Hl j Hin) as [_ [->|Ht]]; [now apply t_step|eapply t_trans; [exact Ht|now apply t_step]]. }
      assert (length (j :: l) <= n); [|cbn in *; lia]. apply NoDup_bound; [assumption|]. intros x [<-|Hx]; [eapply Hn; eassumption|now apply Hl].
    - apply (IH (j :: l)).
      + cbn [length]. lia.
      + constructor; [|assumption]. intro Hin. apply (Hc j). destruct (Hl j Hin) as [_ [->|Ht]]; [now apply t_step|eapply t_trans; [exact Ht|now apply t_step]].
      + intros x [<-|Hx]; [split; [eapply Hn; eassumption|now left]|]. destruct (Hl x Hx) as [H1 [->|H2]].
        * split; [assumption|right; now apply t_step].
        * split; [assumption|right; eapply t_trans; [exact H2|now apply t_step]].
      + now left. }
  intro i. constructor. intros j Hj. apply (G n [j] j).
  - lia.
  - constructor; [intros []|constructor].
  - intros x [<-|[]]. split; [eapply Hn; eassumption|now left].
  - now left.
Qed.

Section Copies.
  Context (h0 : heap) (cs cn : list (text * list nat)) (HA : Analysed h0 cs cn) (r : heap) (Hres : resolve h0 cs cn = ROk r) (HR : Resolved h0 r).

  Lemma in_range i : n_parent (hget h0 i) <> None -> i < length h0.
  Proof. intro H. destruct (Nat.lt_ge_cases i (length h0)) as [|L]; [assumption|]. unfold hget in H. rewrite nth_overflow in H by assumption. now destruct H. Qed.

  Lemma section_res i : is_section (hget r i) <-> is_section (hget h0 i). Proof. apply (of_kind_res h0 r HR true i). Qed.
  Lemma deep_res i : n_deep_copy (hget r i) = n_deep_copy (hget h0 i). Proof. pose proof (res_text h0 r HR i) as H. unfold text_part in H. congruence. Qed.
  Lemma merged_res i j : merged h0 i j -> merged r i j.
  Proof.
    induction 1 as [i j Ht Hd|s t i j Hm IH Hi Hj Si Sj Hk].
    - apply mg_copy; [now apply (template_res h0 r HR)|]. now rewrite deep_res.
    - destruct (res_fields h0 r HR i) as (Ki & _ & _ & _ & _ & _ & _ & _ & Pi & _). destruct (res_fields h0 r HR j) as (Kj & _ & _ & _ & _ & _ & _ & _ & Pj & _).
      eapply mg_inner; [exact IH|congruence|congruence|now apply section_res|now apply section_res|congruence].
  Qed.
  Lemma draws_res i j : draws_on h0 i j -> draws_on r i j.
  Proof. intros [H|H]; [left; now apply (template_res h0 r HR)|right; now apply merged_res]. Qed.
  Lemma draws_plus_res i j : clos_trans nat (draws_on h0) i j -> clos_trans nat (draws_on r) i j.
  Proof. induction 1; [apply t_step; now apply draws_res|eapply t_trans; eassumption]. Qed.
  Lemma draws_lt i j : draws_on h0 i j -> j < length h0.
  Proof.
    intros [H|H]; [apply (template_lt _ _ _ _ H)|]. destruct H as [i j H _|s t i j _ _ Hj _ _ _]; [apply (template_lt _ _ _ _ H)|]. apply in_range. congruence.
  Qed.

  Lemma all_ends : well_founded_copies r -> forall e, ends r e.
  Proof.
    intros Hw e. destruct (Nat.lt_ge_cases e (length h0)) as [He|He].
    2:{ apply en_plain. unfold plain. rewrite (over h0 r HR e He). unfold hget. destruct e; split; reflexivity. }
    assert (Acc (fun b a => clos_trans nat (draws_on h0) a b) e) as Ha.
    { apply (finite_acc _ (length h0)).
      - intros i j H. apply clos_trans_tn1 in H. destruct H as [H|y z H _]; eapply draws_lt; eassumption.
      - intros i H. apply (Hw i). apply draws_plus_res. clear - H. assert (forall a b, clos_trans nat (clos_trans nat (draws_on h0)) a b -> clos_trans nat (draws_on h0) a b) as G.
        { induction 1; [assumption|eapply t_trans; eassumption]. } now apply G. }
    revert He. induction Ha as [e _ IH]. intro He.
    assert (n_type (hget r e) = SECTION \/ n_type (hget r e) <> SECTION) as [Hs|Hs] by (destruct (n_type (hget r e)); (now left) || (right; discriminate)).
    2:{ now apply (doc_ends r (doc_of h0 cs cn HA r HR)). }
    pose proof (resolved_links h0 cs cn r HA Hres) as HL.
    assert (sec h0 e) as Se by (apply (sec_text h0 r e (lk_text _ _ HL) He Hs)).
    destruct (lk_ok h0 r HL e Se) as [HM HX]. destruct (n_mirror (hget r e)) as [m|] eqn:Em.
    - destruct (HM m eq_refl) as [Sm Rm]. apply (en_mirror r e m Em). apply IH; [assumption|apply Sm].
    - destruct (n_extend (hget r e)) as [t|] eqn:Et; [|now apply en_plain]. destruct (HX t eq_refl) as [St Rt].
      apply (en_extend r e t (conj Em Et)). apply IH; [assumption|apply St].
  Qed.

  Lemma plain_copies : no_deep_sections r -> well_founded_copies r.
  Proof.
    intros Hn i Hc. apply (rs_acyclic _ _ HR true i). unfold on_cycle.
    assert (forall a b, merged r a b -> n_deep_copy (hget r a) = true /\ template_is true r a b) as Hm.
    { induction 1 as [a b Ht Hd|s t a b Hm IH Ha Hb Sa Sb Hk]; [auto|]. exfalso. apply (Hn s a); tauto. }
    revert Hc. generalize i at 1 3. intros j Hc. induction Hc as [a b [H|H]|a b d _ H1 _ H2].
    - apply t_step. left. now apply (template_res h0 r HR).
    - apply t_step. left. apply (template_res h0 r HR). now apply Hm.
    - eapply t_trans; eassumption.
  Qed.

  (** * C25 *)
  Lemma encloses_res a i : encloses r a i <-> above h0 a i.
  Proof.
    rewrite <- encloses_above. split; induction 1 as [i p Hp|i p a Hp _ IH]; (destruct (res_fields h0 r HR i) as (_ & _ & _ & _ & _ & _ & _ & _ & P & _));
      [apply enc_parent|eapply enc_up|apply enc_parent|eapply enc_up]; try eassumption; congruence.
  Qed.
  Lemma plainly_sheltered e : copied_plainly r e -> sheltered h0 e.
  Proof.
    induction 1 as [e H1 _ IH]. intros j Hj. apply clos_rt_rt1n in Hj. inversion Hj as [|t j' Ht Hj']; subst.
    - intros a Ha. rewrite <- deep_res. apply H1. now apply encloses_res.
    - apply clos_rt1n_rt in Hj'. apply (IH t); [now apply (template_res h0 r HR)|assumption].
  Qed.

  Lemma own_same e : own_elements r e = own_elements h0 e.
  Proof. unfold own_elements. now destruct (res_fields h0 r HR e) as (_ & _ & E & _). Qed.

  Lemma without_nil l l' : without r [] l l' -> l' = l.
  Proof. induction 1 as [|x l l' H H' IH|x l l' (y & [] & _) H' IH]; [reflexivity|now rewrite IH]. Qed.

  Lemma settled_cases i n : settled h0 i n -> n_template (hget h0 i) = None /\ n = cleared (hget h0 i) \/
    exists t tn, template_is true h0 i t /\ settled h0 t tn /\ n = set_copy false (consol_section t tn (cleared (hget h0 i))).
  Proof. destruct 1 as [i H|i t tn H1 H2]; [now left|right; eauto]. Qed.

  Lemma copied_list e L : section_list r e L -> copied_plainly r e -> is_section (hget r e) -> element_list r e L.
  Proof.
    pose proof (doc_of h0 cs cn HA r HR) as HDoc.
    induction 1 as [e Ht|e t l l' Ht Hl IH Hw]; intros Hp Hs.
    - apply section_res in Hs as Hs0. pose proof (rs_sec _ _ HR e ltac:(now apply (kind_cls true) in Hs0) (plainly_sheltered e Hp)) as S.
      apply li_own. destruct (res_fields h0 r HR e) as (_ & _ & _ & _ & _ & _ & _ & T & _). rewrite T in Ht.
      destruct (settled_cases _ _ S) as [[Hi Ei]|(t' & tn & Ht' & Hset & Ei)].
      + destruct (pristine_over h0 cs cn HA e) as (P1 & P2 & _).
        pose proof (f_equal n_mirror Ei) as E1. pose proof (f_equal n_extend Ei) as E2. cbn in E1, E2. split; congruence.
      + exfalso. now apply template_copies in Ht'.
    - apply section_res in Hs as Hs0. pose proof (rs_sec _ _ HR e ltac:(now apply (kind_cls true) in Hs0) (plainly_sheltered e Hp)) as S.
      assert (copied_plainly r t) as Hpt by (inversion Hp as [? H1 H2]; now apply H2).
      assert (is_section (hget r t)) as Hst by (destruct Ht as (k & _ & (_ & K & _) & _); exact K).
      specialize (IH Hpt Hst). apply (template_res h0 r HR) in Ht.
      destruct (settled_cases _ _ S) as [[Hi Ei]|(t' & tn & Ht' & Hset & Ei)]; [exfalso; now apply template_copies in Ht|].
      assert (t' = t) as ->.
      { destruct Ht as (k & (_ & _ & K1) & C1 & U1), Ht' as (k' & (_ & _ & K2) & C2 & U2). assert (k' = k) as -> by congruence. now apply U1. }
      pose proof (rs_sec _ _ HR t ltac:(apply section_res in Hst; now apply (kind_cls true) in Hst) (plainly_sheltered t Hpt)) as St.
      pose proof (settled_fun _ _ _ _ St Hset) as Et.
      assert (n_mirror tn = n_mirror (hget r t)) as Emt by (rewrite <- Et; reflexivity).
      destruct (pristine_over h0 cs cn HA e) as (P1 & P2 & _).
      pose proof (f_equal n_mirror Ei) as E1. pose proof (f_equal n_extend Ei) as E2. cbn in E1, E2. clear Ei.
      unfold consol_section in E1, E2.
      assert (n_elements (inherited tn (cleared (hget h0 e))) = own_elements h0 e) as Eel.
      { unfold own_elements, inherited. destruct (n_comments tn), (n_comments (cleared (hget h0 e))); reflexivity. }
      assert (n_mirror (inherited tn (cleared (hget h0 e))) = None /\ n_extend (inherited tn (cleared (hget h0 e))) = None) as [Enm Enx].
      { unfold inherited. destruct (n_comments tn), (n_comments (cleared (hget h0 e))); cbn; split; assumption. }
      rewrite Eel in E1, E2. rewrite own_same in Hw |- *.
      destruct (own_elements h0 e) as [|x own] eqn:Eo.
      + cbn in E1, E2. apply without_nil in Hw. subst l'. cbn [app].
        destruct (n_mirror tn) as [m|] eqn:Em.
        * apply (li_mirror r e m); [unfold mirrors; congruence|].
          inversion IH as [? [G _]|? ? ? G G2|? ? ? ? [G1 G2]]; subst; [congruence| |congruence].
          unfold mirrors in G. replace m with m0 by congruence. assumption.
        * apply (li_mirror r e t); [unfold mirrors; congruence|assumption].
      + cbn [n_mirror n_extend set_extend] in E1, E2. rewrite Enm in E1.
        rewrite <- Eo, <- own_same. apply (li_extend r e t l l'); [split; congruence|assumption|]. now rewrite own_same, Eo.
  Qed.
  Lemma section_list_total e : copied_plainly r e -> is_section (hget r e) -> exists L, section_list r e L.
  Proof.
    pose proof (doc_of h0 cs cn HA r HR) as HDoc.
    induction 1 as [e H1 H2 IH]. intro Hs. pose proof (cp r e H1 H2) as Hp. apply section_res in Hs as Hs0.
    pose proof (rs_sec _ _ HR e ltac:(now apply (kind_cls true) in Hs0) (plainly_sheltered e Hp)) as S.
    destruct (settled_cases _ _ S) as [[Hi Ei]|(t & tn & Ht & Hset & Ei)].
    - eexists. apply sl_own. now destruct (res_fields h0 r HR e) as (_ & _ & _ & _ & _ & _ & _ & -> & _).
    - apply (template_res h0 r HR) in Ht. destruct (IH t Ht) as (l & Hl); [destruct Ht as (k & _ & (_ & K & _) & _); exact K|].
      assert (forall x, In x l -> n_key (hget r x) <> None) as Hk.
      { clear - Hl HDoc. induction Hl as [e Ht|e t l l' Ht Hl IH Hw]; intros x Hx.
        - now apply (doc_elements r HDoc e x Hx).
        - apply in_app_or in Hx as [Hx|Hx]; [now apply (doc_elements r HDoc e x Hx)|]. apply IH. clear - Hw Hx.
          induction Hw as [|y l l' H Hw IH|y l l' H Hw IH]; [destruct Hx| |right; auto]. destruct Hx as [->|Hx]; [now left|right; auto]. }
      destruct (without_total r (own_elements r e) l) as (l' & Hl'); [intros x Hx; now apply (doc_elements r HDoc e x Hx)|assumption|].
      eexists. eapply sl_copy; eassumption.
  Qed.
End Copies.
