(** SaidProofs: texts that say the same (C57). *)
From Verif Require Import Base Types Analyzer Scan SpecText SpecSaid SaidRun SaidResolve SaidLoop Resolver Reporter Errors Context ReadOps ParseOutcome SaidReads.

Lemma same_complaint_skin p q : skin_err p = skin_err q -> same_complaint p q.
Proof. destruct p, q; cbn; intro H; try discriminate; try injection H; auto. Qed.

Section Pair.
  Context (d1 d2 : text) (L : list (list (nat * option text) * said)) (H1 : tells d1 L) (H2 : tells d2 L).

  Lemma analysed_both : match analyze d1, analyze d2 with
    | AOk s1 _, AOk s2 _ => same d1 d2 (a_heap s1) (a_heap s2) /\ a_cs s1 = a_cs s2 /\ a_cn s1 = a_cn s2
    | AErr p _ _, AErr q _ _ => skin_err p = skin_err q
    | _, _ => False
    end.
  Proof.
    destruct H1 as (l1 & S1 & E1), H2 as (l2 & S2 & E2). pose proof (analyze_says d1 l1 S1) as A1. pose proof (analyze_says d2 l2 S2) as A2.
    pose proof (arun_noted l1 init_ast []) as F1. pose proof (arun_noted l2 init_ast []) as F2. change (with_c (pc []) init_ast) with init_ast in F1, F2. rewrite <- E1 in F1. rewrite <- E2, <- F1 in F2. clear F1.
    unfold analysed_as in A1, A2. destruct (arun init_ast l1) as [a1|e1], (arun init_ast l2) as [a2|e2]; cbn [fin] in F2; try discriminate; injection F2 as F2.
    - destruct (analyze d1); try contradiction. destruct (analyze d2); try contradiction. destruct A1 as (? & ? & ?), A2 as (? & ? & ?). unfold same. split; [|split]; congruence.
    - destruct (analyze d1); try contradiction. destruct (analyze d2); try contradiction. congruence.
  Qed.

  Lemma resolved_both h1 h2 cs cn : same d1 d2 h1 h2 -> match resolve h1 cs cn, resolve h2 cs cn with
    | ROk k1, ROk k2 => same d1 d2 k1 k2
    | RErr p k1, RErr q k2 => p = q /\ same d1 d2 k1 k2
    | RKey, RKey | RFuel, RFuel => True
    | _, _ => False
    end.
  Proof.
    intro H. pose proof (resolve_hom d1 h1 cs cn) as R1. pose proof (resolve_hom d2 h2 cs cn) as R2. red in H. rewrite H, R2 in R1. unfold same.
    destruct (resolve h1 cs cn), (resolve h2 cs cn); cbn in R1; try discriminate; try exact I; injection R1; auto.
  Qed.

  Theorem same_document loc rk src c1 : parse_context d1 loc rk src = Ok c1 -> exists c2, parse_context d2 loc rk src = Ok c2 /\
    forall hist a, answered d2 a (after d2 hist (c_heap c2)) = answered d1 a (after d1 hist (c_heap c1)).
  Proof.
    intro HP. apply parse_ok in HP as (st & lc & h & Ha & Hr & ->). pose proof analysed_both as B. rewrite Ha in B. destruct (analyze d2) as [s2 lc2|? ? ?| |] eqn:E2; try contradiction.
    destruct B as (Bh & Bs & Bn). rewrite Bs, Bn in Hr. pose proof (resolved_both _ _ (a_cs s2) (a_cn s2) Bh) as R. rewrite Hr in R. destruct (resolve (a_heap s2) (a_cs s2) (a_cn s2)) as [k2| | |] eqn:Er; try contradiction.
    eexists. split; [apply parse_ok; exists s2, lc2, k2; split; [exact E2|split; [exact Er|reflexivity]]|]. cbn [c_heap]. intros hist a. symmetry. now apply answered_agree.
  Qed.

  Theorem same_faults p h meta lc : fault d1 p h meta lc -> exists q h' meta' lc', fault d2 q h' meta' lc' /\ same_complaint p q.
  Proof.
    intro F. pose proof analysed_both as B. destruct F as [e st lc Ha|e st lc h Ha Hr]; rewrite Ha in B; destruct (analyze d2) as [s2 lc2|e2 s2 lc2| |] eqn:E2; try contradiction.
    - do 4 eexists. split; [apply fault_line; exact E2|]. now apply same_complaint_skin.
    - destruct B as (Bh & Bs & Bn). rewrite Bs, Bn in Hr. pose proof (resolved_both _ _ (a_cs s2) (a_cn s2) Bh) as R. rewrite Hr in R. destruct (resolve (a_heap s2) (a_cs s2) (a_cn s2)) as [|q k2| |] eqn:Er; try contradiction.
      destruct R as (-> & _). do 4 eexists. split; [eapply fault_copy; [exact E2|exact Er]|]. now apply same_complaint_skin.
  Qed.
End Pair.

Theorem every_document d loc rk src c : parse_context d loc rk src = Ok c -> exists L, tells d L /\ forall L', tells d L' -> L' = L.
Proof.
  intro HP. apply parse_ok in HP as (st & lc & h & Ha & _). destruct (analyze_said d st lc Ha) as (l & Hl). exists (noted [] l). split; [now exists l|].
  intros L' (l' & Hl' & ->). now rewrite (says_fun d 0 l Hl l' Hl').
Qed.
