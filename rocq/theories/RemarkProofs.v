(** RemarkProofs: the comments of sections inside deep copies (C49). *)
From Coq Require Import Relations.
From Verif Require Import Base Types Scan Messages Analyzer TokenStep HeapFacts AnalyzerInv AnalyzerLoop SpecTree AnalyzerTree
  AnalyzerFinal AnalyzerCopies Resolver SpecResolve ResolverIndex ResolverFields ResolverSections ResolverFinal
  Reporter Errors Context SpecText SpecRead Reads ReadOps ReadLinks ParseOutcome SpecApi ApiDoc ApiInv SpecLinks ResolverLinks QueryProofs
  SpecMerge ResolverMerge CopiesProofs MergeProofs SpecRemarks ResolverRemarks InheritProofs.

Section Remarks.
  Context (h0 : heap) (cs cn : list (text * list nat)) (HA : Analysed h0 cs cn).

  Lemma gives_draws0 a u i j : gives h0 a u i j -> draws_on h0 i j.
  Proof.
    intros [Ht H]. destruct (n_deep_copy (hget h0 a)) eqn:Ed.
    - right. assert (merged h0 a u) as Hm by now apply mg_copy. destruct (template_lt _ _ _ _ Ht) as [La Lu]. clear Ht Ed. revert La Lu Hm.
      induction H as [s t|s t a b i j (Ha & Hb & K) H IH]; intros Ls Lt Hm; [assumption|].
      destruct (sole_child h0 cs cn HA s a Ls Ha) as (Sa & Pa & _). destruct (sole_child h0 cs cn HA t b Lt Hb) as (Sb & Pb & _).
      apply IH; [apply Sa|apply Sb|]. eapply mg_inner; try eassumption; now apply sec_kind.
    - destruct H as [-> ->]. now left.
  Qed.
  Lemma quiet : well_founded_copies h0 -> forall a u i j, gives h0 a u i j -> forall a' u' j', above h0 a' u -> ~ gives h0 a' u' j j'.
  Proof.
    intros Hw a u e t Hg a' u' j Hab Hg'. destruct (gives_in h0 cs cn HA a u e t Hg) as (_ & Su & _ & Tu & _).
    pose proof Hg' as [Ht' Hp'].
    assert (a' <> t) as Hne.
    { intros ->. pose proof (fun a i => above_lt h0 a i (an_s _ _ _ HA)) as Hlt. destruct Tu as [->|Tu]; [specialize (Hlt u u (proj1 Su) Hab); lia|].
      pose proof (Hlt t u (proj1 Su) Hab). specialize (Hlt u t ltac:(destruct Su; lia) Tu). lia. }
    destruct (n_deep_copy (hget h0 a')) eqn:Ed; [|destruct Hp'; congruence]. destruct (template_lt _ _ _ _ Ht') as [La' Lu'].
    destruct (pairs_through h0 cs cn HA a' u' t j La' Lu' Hp' u Hab Tu) as (v & Hv & Kv & Sv).
    assert (draws_on h0 u v) as D1 by (apply (gives_draws0 a' u' u v); split; [assumption|now rewrite Ed]).
    destruct (proj1 Hg) as (k & _ & (Lu & Ku & Nu & Tk) & Un).
    destruct (Nat.eq_dec v u) as [->|Hvu]; [apply (Hw u); now apply t_step|].
    assert (n_template (hget h0 v) = Some k) as Hvt.
    { destruct (n_template (hget h0 v)) as [k'|] eqn:Ek.
      - destruct (list_eq_dec N.eq_dec k' k) as [->|Hk]; [reflexivity|]. exfalso. apply Hvu, Un. split; [apply Sv|]. split; [now apply sec_kind|]. split; [congruence|rewrite Ek; congruence].
      - exfalso. apply Hvu, Un. split; [apply Sv|]. split; [now apply sec_kind|]. split; [congruence|rewrite Ek; discriminate]. }
    assert (template_is true h0 v u) as D2.
    { exists k. split; [split; [apply Sv|split; [now apply sec_kind|assumption]]|]. split; [now repeat split|assumption]. }
    apply (Hw u). eapply t_trans; [apply t_step; exact D1|]. apply t_step. now left.
  Qed.

  Lemma remark_fun i v : remark h0 i v -> forall v', remark h0 i v' -> v = v'.
  Proof.
    induction 1 as [i l Hl|i a u j l Hl Hg Hj IH Hn IHn|i Hl Hn IHn]; intros v' H'; inversion H' as [i' l' Hl'|i' a' u' j' l' Hl' Hg' Hj' Hn'|i' Hl' Hn']; subst; try congruence.
    - destruct (gives_in h0 cs cn HA _ _ _ _ Hg) as (_ & _ & I1 & _). destruct (gives_in h0 cs cn HA _ _ _ _ Hg') as (_ & _ & I2 & _).
      destruct (comparable h0 a a' i I1 I2) as [<-|[E|E]].
      + destruct (gives_fun h0 cs cn HA a u i j u' j' Hg Hg') as [_ <-]. now apply IH.
      + specialize (IHn a' u' j' ltac:(now apply encloses_above) Hg' _ Hj'). discriminate.
      + specialize (IH _ (Hn' a u j ltac:(now apply encloses_above) Hg)). discriminate.
    - specialize (IH _ (Hn' a u j Hg)). discriminate.
    - specialize (IHn a' u' j' Hg' _ Hj'). discriminate.
  Qed.

  Lemma remarks_final r : well_founded_copies h0 -> resolve h0 cs cn = ROk r -> forall i, sec h0 i -> remark h0 i (n_comments (hget r i)).
  Proof.
    intros Hw Hr i. destruct (resolved_comments h0 cs cn HA (quiet Hw) r Hr) as [HC Hd].
    assert (Acc (fun b a => clos_trans nat (draws_on h0) a b) i) as Ha.
    { apply (finite_acc _ (length h0)).
      - intros x j H. apply clos_trans_tn1 in H. assert (forall y, draws_on h0 y j -> j < length h0) as G.
        { intros y Hy. destruct Hy as [Hy|Hy]; [apply (template_lt _ _ _ _ Hy)|].
          destruct Hy as [a b Hy _|s t a b _ _ Hb _ _ _]; [apply (template_lt _ _ _ _ Hy)|]. apply in_range. congruence. }
        destruct H as [H|y z H _]; eapply G; eassumption.
      - intros x H. apply (Hw x). clear - H. revert H. assert (forall a b, clos_trans nat (clos_trans nat (draws_on h0)) a b -> clos_trans nat (draws_on h0) a b) as G.
        { induction 1; [assumption|eapply t_trans; eassumption]. } apply G. }
    induction Ha as [i _ IH]. intro Si.
    assert (forall a u j, gives h0 a u i j -> remark h0 j (n_comments (hget r j))) as Hg.
    { intros a u j Hg. apply IH; [apply t_step; eapply gives_draws0; eassumption|]. now apply (gives_in h0 cs cn HA a u i j). }
    destruct (n_comments (hget h0 i)) as [l|] eqn:E0.
    - rewrite (ci_own h0 r HC i l Si E0). now apply rk_own.
    - destruct (n_comments (hget r i)) as [l|] eqn:Er.
      + destruct (ci_given h0 r HC i l Si E0 Er) as (a & u & j & H1 & H2 & H3 & H4). apply (rk_given h0 i a u j l); try assumption.
        * rewrite <- H3. eauto.
        * intros a' u' j' Hab Hg'. rewrite <- (H4 a' u' j'); [eauto|now apply encloses_above|assumption].
      + apply rk_none; [assumption|]. intros a u j Hij. rewrite <- (ci_none h0 r HC a u i j); [eauto|assumption| |assumption].
        apply Hd. now apply (gives_in h0 cs cn HA a u i j).
  Qed.
End Remarks.

Section Parsed.
  Context {inp : text} {loc : locale} {rk : reporter_kind} {src : option text} {c : ctx}.
  Context (HP : parse_context inp loc rk src = Ok c).
  Lemma section_remarks st lc : analyze inp = AOk st lc -> well_founded_copies (a_heap st) ->
    forall i, is_section (hget (a_heap st) i) -> remark (a_heap st) i (n_comments (hget (c_heap c) i)).
  Proof.
    intros Ha Hw i Hi. destruct (parsed_heaps HP) as (st' & lc' & Ha' & HA & Hr & HR). rewrite Ha in Ha'. injection Ha' as <- <-.
    apply (remarks_final (a_heap st) (a_cs st) (a_cn st) HA); try assumption. apply sec_kind. split; [|assumption].
    destruct (Nat.lt_ge_cases i (length (a_heap st))) as [|L]; [assumption|]. unfold is_section, hget in Hi. rewrite nth_overflow in Hi by assumption. discriminate.
  Qed.
  Lemma one_remark st lc : analyze inp = AOk st lc -> forall i v v', remark (a_heap st) i v -> remark (a_heap st) i v' -> v = v'.
  Proof.
    intros Ha i v v' H H'. destruct (parsed_heaps HP) as (st' & lc' & Ha' & HA & Hr & HR). rewrite Ha in Ha'. injection Ha' as <- <-.
    eapply remark_fun; eassumption.
  Qed.
End Parsed.
