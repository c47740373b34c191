(** MarkSingle: reports give each line one mark (support for C55). *)
From Verif Require Import Base Regex Grammar Types Messages Analyzer HeapFacts AnalyzerInv SpecText SpecTree SpecResolve Resolver ResolverComments
  Reporter Errors Context Faults SpecLookup LookupDoc LookupProofs ReporterFacts ParseErrors ParseContext ParseOutcome PrintDoc SpecSnippet SpecDraw SpecMarks LineOrder TagProofs LayoutProofs MarkProofs FaultMarks.

Lemma element_single h e j m n : element_marks h e j m -> element_marks h e j n -> m = n.
Proof. destruct 1 as [|j [J _]]; inversion 1 as [|? [K _]]; subst; (reflexivity || lia). Qed.

Lemma split_cases (l1 : list nat) e l2 : forall l0 y l3, l1 ++ e :: l2 = l0 ++ y :: l3 -> e = y /\ l2 = l3 \/ In y l2 \/ In e l3.
Proof.
  induction l1 as [|a l1 IH]; intros [|b l0] y l3 E; cbn in E.
  - injection E as -> ->. auto.
  - injection E as -> ->. right. left. apply in_or_app. right. now left.
  - injection E as -> <-. right. right. apply in_or_app. right. now left.
  - injection E as _ E. exact (IH l0 y l3 E).
Qed.

Section Single.
  Context {inp : text} {loc : locale} {rk : reporter_kind} {src : option text} {c : ctx} (HP : parse_context inp loc rk src = Ok c).
  Local Notation h := (c_heap c).
  Local Notation nd x := (hget h x).
  Let L : LDoc inp h := parsed_doc HP.

  Lemma missing_single p j m n : missing_marks h p j m -> missing_marks h p j n -> m = n.
  Proof.
    assert (forall l x j, n_type (nd p) = SECTION -> before_sections h p l -> In x l -> inside h x j -> n_line (nd p) < j) as Hgt.
    { intros l x k Ty (l2 & El & _) Hx [J _]. assert (0 < p < length h) as Hp by (apply (not_document HP); congruence).
      assert (n_parent (nd x) = Some p) as Hpx by (apply (elem_child HP p x); [lia|]; rewrite El; apply in_or_app; now left).
      destruct (parent_range _ (ld_s _ _ L) _ _ Hpx) as (R & Lt & _). pose proof (own_before HP p x (n_line (nd p)) ltac:(lia) ltac:(lia) (or_introl eq_refl)). lia. }
    destruct 1 as [T|j T1 T2 [J1 J2]|l x j T HB Hx Hi|l j T HB Hj Hno _]; inversion 1 as [|? ? ? [K1 K2]|? y ? T' HB' Hy Hi'|? ? T' HB' Hj' Hno' _]; subst; try reflexivity; try lia; try congruence.
    - specialize (Hgt _ _ _ T' HB' Hy Hi'). lia.
    - specialize (Hgt _ _ _ T HB Hx Hi). lia.
    - exfalso. rewrite (before_unique p _ _ HB' HB) in Hno'. exact (Hno' _ Hx Hi).
    - exfalso. rewrite (before_unique p _ _ HB' HB) in Hy. exact (Hno _ Hy Hi').
  Qed.
  Theorem complaint_single v x j m n : validation_error c v = Ok x -> complaint_marks h v j m -> complaint_marks h v j n -> m = n.
  Proof.
    intros Hv. destruct 1 as [s e l Hl|s e|s e j m H|s e j m H|key e q j m H|e j m H|s e|e|s e Hm|s e ls l Hm Ht El Hl|s e j m Hm Ht H|key p q j m H|key es q l1 e l2 j m El H1 H2]; inversion 1; subst; try reflexivity; try congruence;
      try match goal with A : element_marks _ _ _ _, B : element_marks _ _ _ _ |- _ => exact (element_single _ _ _ _ _ A B) end; try (intuition congruence).
    - exfalso. match goal with A : n_line _ = l_line _ |- _ => symmetry in A; revert A end. apply (comment_apart HP); [|exact Hl]. exact (commented_range HP _ _ _ Hv).
    - exfalso. match goal with A : In ?l _, B : l_line ?l = n_line _ |- _ => revert B; apply (comment_apart HP); [exact (commented_range HP _ _ _ Hv)|exact A] end.
    - match goal with A : missing_marks _ _ _ n |- _ => exact (missing_single _ _ _ _ H A) end.
    - match goal with A : _ ++ _ = ?l0 ++ ?y :: ?l3, B : element_marks _ ?y _ n, C : forall x k, In x ?l3 -> _ |- _ => pose proof (split_cases l1 e l2 l0 y l3 ltac:(congruence)) as K; pose proof B as B'; pose proof C as C' end.
      destruct K as [[-> ->]|[K|K]]; [exact (element_single _ _ _ _ _ H1 B')|destruct (H2 _ _ K B')|destruct (C' _ _ K H1)].
  Qed.
End Single.

Lemma over_single (mk1 mk2 : nat -> mark -> Prop) j m n : (forall a b, mk1 j a -> mk1 j b -> a = b) -> (forall a b, mk2 j a -> mk2 j b -> a = b) -> over mk1 mk2 j m -> over mk1 mk2 j n -> m = n.
Proof. intros S1 S2 [A|[A A']] [B|[B B']]; auto; [destruct (B m A)|destruct (A n B)]. Qed.
Lemma on_single k v j m n : on k v j m -> on k v j n -> m = n.
Proof. intros [_ ->] [_ ->]. reflexivity. Qed.
Theorem fault_single h lc p j m n : fault_marks h lc p j m -> fault_marks h lc p j n -> m = n.
Proof.
  destruct p as [l|l|l|l|l s|e|e|e|e chain|copy a b|e|e]; cbn [fault_marks]; try apply on_single.
  - apply over_single; [apply on_single|]. intros a b [_ A] [_ B]. exact (on_single _ _ _ _ _ A B).
  - apply over_single; [apply on_single|]. intros a b [_ ->] [_ ->]. reflexivity.
  - intros (l1 & l2 & E & N & copy & C & A) (l1' & l2' & E' & N' & copy' & C' & B).
    assert (l2' = l2) as -> by exact (same_rest e l1' l1 l2' l2 ltac:(congruence) N' N). assert (copy' = copy) as -> by (destruct C as [[? ->]|[? ->]], C' as [[? ->]|[? ->]]; congruence).
    revert A B. apply over_single; [apply on_single|]. intros a b (x & _ & _ & Ha) (y & _ & _ & Hb). destruct Ha as [_ ->], Hb as [_ ->]. reflexivity.
  - apply over_single; [apply on_single|]. intros u v [_ ->] [_ ->]. reflexivity.
Qed.
