(** TwinProofs: what programs see of documents that say the same (C58). *)
From Verif Require Import Base Types Messages Analyzer Scan SpecText SpecSaid SaidRun SaidResolve SaidLoop Resolver Reporter Errors Context Elements Session Faults
  ParseOutcome SpecRead Reads ApiDoc ApiInv ApiState SessionInv SpecQuery QueryProofs PropQueryProofs SaidReads SaidProofs SpecProgram TwinRun.

Section Pair.
  Context (d1 d2 : text) (L : list (list (nat * option text) * said)) (H1 : tells d1 L) (H2 : tells d2 L).

  Lemma same_heaps loc1 rk1 src1 c1 : parse_context d1 loc1 rk1 src1 = Ok c1 -> forall loc2 rk2 src2, exists c2, parse_context d2 loc2 rk2 src2 = Ok c2 /\ same d1 d2 (c_heap c1) (c_heap c2).
  Proof.
    intros HP loc2 rk2 src2. apply parse_ok in HP as (st & lc & h & Ha & Hr & ->). pose proof (analysed_both d1 d2 L H1 H2) as B. rewrite Ha in B.
    destruct (analyze d2) as [s2 lc2|? ? ?| |] eqn:E2; try contradiction. destruct B as (Bh & Bs & Bn). rewrite Bs, Bn in Hr.
    pose proof (resolved_both d1 d2 _ _ (a_cs s2) (a_cn s2) Bh) as R. rewrite Hr in R. destruct (resolve (a_heap s2) (a_cs s2) (a_cn s2)) as [k2| | |] eqn:Er; try contradiction.
    eexists. split; [apply parse_ok; exists s2, lc2, k2; split; [exact E2|split; [exact Er|reflexivity]]|]. exact R.
  Qed.

  Lemma start_ok inp loc rk src c : parse_context inp loc rk src = Ok c -> CtxOk (c_heap c) c c.
  Proof. intro HP. apply (iv_ctx _ _ (inv_reach c (doc_of_parse inp loc rk src c HP) (MkSt c [start_obj CSection 0]) ltac:(eexists; split; [apply be_parse|constructor]))). Qed.

  Theorem same_programs loc1 rk1 src1 c1 : parse_context d1 loc1 rk1 src1 = Ok c1 -> forall loc2 rk2 src2, exists c2, parse_context d2 loc2 rk2 src2 = Ok c2 /\
    forall A (m : sM A), program m -> forall i, same_outcome c1 c2 (snd (m (opened c1 i))) (snd (m (opened c2 i))).
  Proof.
    intros HP1 loc2 rk2 src2. destruct (same_heaps loc1 rk1 src1 c1 HP1 loc2 rk2 src2) as (c2 & HP2 & HS). exists c2. split; [exact HP2|].
    intros A m Hm i. apply (program_twin c1 c2 m Hm). rewrite <- (proj1 (input_is HP1)), <- (proj1 (input_is HP2)) in HS.
    split; cbn; [reflexivity|exact HS|eapply start_ok; exact HP1|eapply start_ok; exact HP2].
  Qed.

  Lemma same_plain c1 c2 e : same (c_input c1) (c_input c2) (c_heap c1) (c_heap c2) -> Errors.key c1 e = Errors.key c2 e /\ n_type (hget (c_heap c1) e) = n_type (hget (c_heap c2) e) /\
    n_parent (hget (c_heap c1) e) = n_parent (hget (c_heap c2) e) /\ n_mirror (hget (c_heap c1) e) = n_mirror (hget (c_heap c2) e).
  Proof.
    intro H. pose proof (same_get _ _ _ _ e H) as T. unfold Errors.key. pose proof (f_equal n_key T) as E1. pose proof (f_equal n_type T) as E2. pose proof (f_equal n_parent T) as E3. pose proof (f_equal n_mirror T) as E4.
    cbn [skin n_key n_type n_parent n_mirror] in *. rewrite E1. auto.
  Qed.
  Lemma bind_ok {A B} (x : res A) (f : A -> res B) b : bind x f = Ok b -> exists a, x = Ok a /\ f a = Ok b.
  Proof. destruct x as [a|]; cbn; [eauto|discriminate]. Qed.
  Lemma build_text t s sel x : build t s sel = Ok x -> t = Ok (er_text x).
  Proof. unfold build. intro H. apply bind_ok in H as (a & -> & H). apply bind_ok in H as (b & _ & H). apply bind_ok in H as (c & _ & [= <-]). reflexivity. Qed.
  Ltac peel H := repeat (let a := fresh "a" in let E := fresh "E" in apply bind_ok in H as (a & E & H)).

  Theorem same_message c1 c2 : same (c_input c1) (c_input c2) (c_heap c1) (c_heap c2) -> c_locale c1 = c_locale c2 ->
    forall v x y, validation_error c1 v = Ok x -> validation_error c2 v = Ok y -> er_text x = er_text y.
  Proof.
    intros HS HL v x y Hx Hy. destruct v; cbn [validation_error] in *.
    1-3, 5-6, 8-10: unfold v_comment_error, v_element_error, v_key_error, v_missing_comment, v_missing_element, v_unexpected_element, v_unexpected_multiple_elements, v_unexpected_element_type, keyed_message in *;
      apply build_text in Hx, Hy; try rewrite <- HL in Hy; congruence.
    - assert (forall c x, v_value_error c message e = Ok x -> er_text x = lc_value_error (c_locale c) message) as K.
      { clear. intros c x H. unfold v_value_error in H. cbv zeta in H.
        repeat match type of H with
        | (if ?b then _ else _) = _ => destruct b
        | match ?b with _ => _ end = _ => destruct b
        | bind _ _ = Ok _ => apply bind_ok in H as (? & _ & H)
        end; try discriminate; injection H as <-; reflexivity. }
      rewrite (K _ _ Hx), (K _ _ Hy), HL. reflexivity.
    - unfold v_missing_value in *. cbv zeta in *. destruct (same_plain c1 c2 e HS) as (K1 & K2 & K3 & _).
      apply bind_ok in Hx as (mf & Hm & Hx). apply bind_ok in Hy as (mf' & Hm' & Hy). apply bind_ok in Hx as (s & _ & Hx). apply bind_ok in Hy as (s' & _ & Hy).
      apply bind_ok in Hx as (to & _ & Hx). apply bind_ok in Hy as (to' & _ & Hy). destruct mf as [[t f]|]; [|discriminate]. destruct mf' as [[t' f']|]; [|discriminate].
      injection Hx as <-. injection Hy as <-. cbn [er_text]. rewrite <- K2 in Hm'. destruct (n_type (hget (c_heap c1) e)); try discriminate;
        try (apply bind_ok in Hm as (k & Ek & Hm), Hm' as (k' & Ek' & Hm'); apply bind_ok in Hm as (z & _ & Hm), Hm' as (z' & _ & Hm'); injection Hm as <- <-; injection Hm' as <- <-; rewrite HL; congruence).
      apply bind_ok in Hm as (p & Ep & Hm), Hm' as (p' & Ep' & Hm'). rewrite <- K3 in Ep'. assert (p' = p) as -> by congruence. destruct (same_plain c1 c2 p HS) as (K & _).
      apply bind_ok in Hm as (k & Ek & Hm), Hm' as (k' & Ek' & Hm'); apply bind_ok in Hm as (z & _ & Hm), Hm' as (z' & _ & Hm'); injection Hm as <- <-; injection Hm' as <- <-; rewrite HL; congruence.
  Qed.

  Theorem same_messages loc rk1 src1 c1 rk2 src2 c2 : parse_context d1 loc rk1 src1 = Ok c1 -> parse_context d2 loc rk2 src2 = Ok c2 ->
    forall v x y, validation_error c1 v = Ok x -> validation_error c2 v = Ok y -> er_text x = er_text y.
  Proof.
    intros HP1 HP2. destruct (same_heaps loc rk1 src1 c1 HP1 loc rk2 src2) as (c2' & HP2' & HS). assert (c2' = c2) as -> by congruence.
    destruct (input_is HP1) as [I1 L1], (input_is HP2) as [I2 L2]. apply same_message; congruence.
  Qed.
End Pair.

Theorem other_labels inp loc rk src c : parse_context inp loc rk src = Ok c -> forall loc' rk' src', exists c', parse_context inp loc' rk' src' = Ok c' /\
  forall A (m : sM A), program m -> forall i, same_outcome c c' (snd (m (opened c i))) (snd (m (opened c' i))).
Proof.
  intros HP loc' rk' src'. destruct (every_document inp loc rk src c HP) as (L & HT & _). exact (same_programs inp inp L HT HT loc rk src c HP loc' rk' src').
Qed.
