(** AskFails: asking for elements fails as documented. *)
From Verif Require Import Base Types Messages Resolver Reporter Errors Context Elements SpecTree SpecResolve SpecRead SpecApi SpecQuery SpecLoad Reads ErrorCaches ApiDoc ApiInv ApiState ApiOps
  Session SessionInv SessionRun Faults QueryProofs LoadProofs SpecTouch TouchProofs TouchRuns PropTouchProofs PropParseProofs PropReadProofs ParseOutcome PropQueryProofs SpecLinks PropCopiesProofs SpecPrint PrintProofs RefuseProofs SpecCrash CrashProofs CrashRun.

Section Parsed.
  Context {inp : text} {loc : locale} {rk : reporter_kind} {src : option text} {c : ctx} (HP : parse_context inp loc rk src = Ok c).
  Context (HK : c_reporter c <> TerminalReporter \/ no_deep_copies (c_heap c)) (HG : presentable (c_heap c)).
  Local Notation h := (c_heap c).
  Let HD : Doc h := doc_of_parse inp loc rk src c HP.
  Let HR : forall s, reach c s -> Inv c s := inv_reach c HD.

  Definition voiced (e : exn) : Prop := exists v x, e = ValidationError x /\ validation_error c v = Ok x.
  Lemma voiced_raised {A} v e : Forall (fun e => e < length h) (concerned v) -> reportable h v -> @raised A (validation_error c v) = Raise e -> voiced e.
  Proof. intros Hc Hv. destruct (proj2 (reportable_ok HP v Hc HK) Hv) as [x Hx]. rewrite Hx. cbn. intros [= <-]. now exists v, x. Qed.
  Lemma at_top e : ~ gap_at_top h e.
  Proof. intros (Ht & l1 & x & y & l2 & E & _ & B). apply (proj2 (HG e)). exact (gap_here h e l1 x y l2 Ht E B). Qed.
  Lemma not_document e : n_type (hget h e) <> DOCUMENT -> e <> 0.
  Proof. intros H ->. apply H. apply (doc_root _ HD). Qed.
  Lemma voiced_type {A} k x q e : x < length h -> x <> 0 -> @raised A (v_unexpected_element_type c k x q) = Raise e -> voiced e.
  Proof. intros Hl H0. apply (voiced_raised (OtherKind k x q)); [repeat constructor; assumption|]. split; [assumption|apply HG]. Qed.
  Lemma voiced_many {A} k l q e : l <> [] -> (forall x, In x l -> x < length h /\ x <> 0) -> @raised A (v_unexpected_multiple_elements c k l q) = Raise e -> voiced e.
  Proof.
    intros Hn Hl. apply (voiced_raised (TooMany k l q)).
    - apply Forall_forall. intros x Hx. apply (Hl x Hx).
    - split; [assumption|]. intros x Hx. split; [apply (Hl x Hx)|apply HG].
  Qed.
  Lemma voiced_none required b k p q m e : p < length h -> none_found required b (v_missing_element c k p q) m = Raise e -> voiced e.
  Proof.
    intro Hp. assert (raised (v_missing_element c k p q) = @Raise found e -> voiced e) as G by (apply (voiced_raised (NoElement k p q)); [repeat constructor; assumption|apply at_top]).
    unfold none_found. destruct required as [[|]|], b; try exact G; discriminate.
  Qed.
  Lemma element_there e L x : element_list h e L -> In x L -> x < length h /\ x <> 0.
  Proof.
    intros HL Hx. destruct (element_list_from h e L HL x Hx) as (e' & He'). destruct (doc_elements h HD e' x He') as (H1 & H2 & _). split; [assumption|]. apply not_document.
    intro E. unfold is_element, is_section in H2. rewrite E in H2. intuition discriminate.
  Qed.
  Lemma entry_there e L x : entry_list h e L -> In x L -> x < length h /\ x <> 0.
  Proof.
    intros HL Hx. destruct (entry_list_from h e L HL x Hx) as (e' & He'). destruct (doc_entries h HD e' x He') as (H1 & H2 & _). split; [assumption|]. apply not_document. congruence.
  Qed.
  Lemma item_there e L x : item_list h e L -> In x L -> x < length h /\ x <> 0.
  Proof.
    intros HL Hx. destruct (item_list_from c e L HL x Hx) as (e' & He'). destruct (doc_items h HD e' x He') as (H1 & H2). split; [assumption|]. apply not_document. congruence.
  Qed.

  (** * What was not looked at *)
  Lemma kid_there s o l z : Inv c s -> o < length (s_objs s) -> o_children (oget s o) = Some l -> In z l ->
    z < length (s_objs s) /\ o_class (oget s z) = child_class (o_class (oget s o)).
  Proof. intros HI Ho Hl Hz. pose proof (ki_each _ _ _ _ _ (oo_kids _ _ _ _ (iv_obj _ _ HI o Ho) l Hl)) as K. rewrite Forall_forall in K. specialize (K z Hz). tauto. Qed.
  Lemma class_there s z : Inv c s -> z < length (s_objs s) -> o_class (oget s z) = CSectionElement \/ o_class (oget s z) = CEntry \/ o_class (oget s z) = CItem ->
    o_instr (oget s z) < length h /\ o_instr (oget s z) <> 0.
  Proof.
    intros HI Hz Hc. pose proof (oo_class _ _ _ _ (iv_obj _ _ HI z Hz)) as HF. pose proof (oo_instr _ _ _ _ (iv_obj _ _ HI z Hz)) as HL. split; [exact HL|]. apply not_document.
    destruct Hc as [Hc|[Hc|Hc]]; rewrite Hc in HF; cbn [class_fits] in HF; [tauto|congruence..].
  Qed.
  Lemma unseen_there s e i : Inv c s -> unseen h s e i -> e < length (s_objs s) -> o_class (oget s e) = CSectionElement -> i < length h /\ i <> 0.
  Proof.
    intros HI H. induction H as [e Hu|e k y Hr Ht|e k y l z Hk Hr Ht Hl Hz Hn|e y l z i Hr Ht Hl Hz Hu IH|e k y L i Hr Ht Hl HL Hi]; intros He Hc.
    - apply class_there; auto.
    - destruct (oo_slot _ _ _ _ (iv_obj _ _ HI e He) k y Hr) as (_ & _ & _ & -> & _). apply class_there; auto.
    - destruct (oo_slot _ _ _ _ (iv_obj _ _ HI e He) k y Hr) as (_ & Hy & Cy & _). destruct (kid_there s y l z HI) as [Z1 Z2]; auto; [lia|]. rewrite Cy in Z2.
      apply class_there; auto. destruct Hk as [-> | ->]; cbn in Z2; auto.
    - destruct (oo_slot _ _ _ _ (iv_obj _ _ HI e He) KSection y Hr) as (_ & Hy & Cy & _). destruct (kid_there s y l z HI) as [Z1 Z2]; auto; [lia|]. rewrite Cy in Z2. now apply IH.
    - destruct k; cbn [listed] in HL; try (subst L; contradiction); [exact (entry_there _ L i HL Hi)|exact (item_there _ L i HL Hi)|exact (element_there _ L i HL Hi)].
  Qed.
  Lemma overlooked_there s o only skip i : Inv c s -> o < length (s_objs s) -> o_class (oget s o) = CSection -> overlooked h s o only skip i -> i < length h /\ i <> 0.
  Proof.
    intros HI Ho Hc [(l & e & Hl & He & _ & Hu)|(_ & L & HL & Hi & _)].
    - destruct (kid_there s o l e HI Ho Hl He) as [Z1 Z2]. rewrite Hc in Z2. now apply (unseen_there s e).
    - exact (element_there _ L i HL Hi).
  Qed.

  Theorem asking_fails s k e : reach c s -> subject k < length (s_objs s) -> callable k (o_class (oget s (subject k))) -> asks s k -> snd (run_call k s) = Raise e ->
    (exists v x, e = ValidationError x /\ validation_error c v = Ok x) \/ (e = TypeError /\ taken s k).
  Proof.
    intros Hs Ho Hc Hk E. pose proof (HR s Hs) as HI. change (voiced e \/ (e = TypeError /\ taken s k)).
    assert (HN : names s (subject k) (o_class (oget s (subject k))) (o_instr (oget s (subject k)))) by (repeat split; auto).
    pose proof (oo_instr _ _ _ _ (iv_obj _ _ HI _ Ho)) as HL0. pose proof (oo_class _ _ _ _ (iv_obj _ _ HI _ Ho)) as HF.
    pose proof (proj1 (HG (o_instr (oget s (subject k))))) as He.
    destruct k; cbn [run_call subject callable asks] in *; try contradiction; try (apply dropped in E).
    - rewrite Hc in HN. destruct (element_list_total _ HD _ He) as (L & HL). pose proof (query_single HP s _ _ what key required L Hs HN HL) as Q. rewrite E in Q.
      assert (T : forall x, In x (filter (keyed h key) L) -> x < length h /\ x <> 0) by (intros x Hx; apply filter_In in Hx as [Hx _]; exact (element_there _ L x HL Hx)).
      unfold single_answer in Q. destruct (filter _ L) as [|x [|y l]].
      + left. symmetry in Q. exact (voiced_none _ _ _ _ _ _ _ HL0 Q).
      + destruct what as [kd|]; [|destruct Q as (z & Q & _); discriminate]. destruct (readable _ kd).
        * destruct Q as [(z & Q & _)|[Q R]]; [discriminate|]. right. split; [congruence|]. cbn. now exists x.
        * left. symmetry in Q. destruct (T x (or_introl eq_refl)) as [T1 T2]. exact (voiced_type _ x _ _ T1 T2 Q).
      + left. symmetry in Q. exact (voiced_many _ (x :: y :: l) _ _ ltac:(discriminate) T Q).
    - rewrite Hc in HN. destruct (element_list_total _ HD _ He) as (L & HL). destruct (query_elements HP s _ _ key L Hs HN HL) as (ys & Q & _). congruence.
    - rewrite Hc in HN. destruct (element_list_total _ HD _ He) as (L & HL). pose proof (query_plural HP s _ _ k key L Hs HN HL) as Q. rewrite E in Q.
      destruct Q as [(ys & Q & _)|(b & x & a & Ef & _ & Q)]; [discriminate|].
      assert (x < length h /\ x <> 0) as [T1 T2].
      { assert (In x (filter (keyed h key) L)) as Hx by (rewrite Ef; apply in_or_app; right; now left). apply filter_In in Hx as [Hx _]. exact (element_there _ L x HL Hx). }
      destruct (readable _ k).
      + right. destruct Q as [Q R]. split; [congruence|]. cbn. now exists x.
      + left. symmetry in Q. exact (voiced_type _ x _ _ T1 T2 Q).
    - rewrite (to_kind_is c k e0 s HI Ho) in E by (destruct Hc as [Hc|Hc]; rewrite Hc; reflexivity).
      assert (G : snd (if accepts k (n_type (hget h (o_instr (oget s e0)))) then (yield_new k e0 s, Ok (length (s_objs s)))
                       else (s, raised (v_unexpected_element_type c None (o_instr (oget s e0)) (expected_msg k)))) = Raise e -> voiced e).
      { destruct (accepts k _); cbn [snd]; [discriminate|]. exact (voiced_type _ _ _ _ HL0 Hk). }
      destruct (yield_slot k (oget s e0)) as [y|] eqn:Ey; [discriminate|].
      assert (Y : forall t, o_yielded (oget s e0) = Some t -> @Raise nat TypeError = Raise e -> voiced e \/ e = TypeError /\ taken s (Yield k e0)).
      { intros t Ht [= <-]. right. split; [reflexivity|]. cbn [taken]. destruct (oo_yield _ _ _ _ (iv_obj _ _ HI e0 Ho) t Ht) as (j & y & Hy). exists j, y. split; [|assumption]. intros ->. congruence. }
      destruct k, (o_yielded (oget s e0)) as [t|]; cbn [snd] in E; try (left; exact (G E)); exact (Y t eq_refl E).
    - rewrite Hc in HN. destruct (entry_list_total _ HD _ He) as (L & HL). pose proof (query_entry HP s _ _ key required L Hs HN HL) as Q. rewrite E in Q.
      assert (T : forall x, In x (filter (keyed h key) L) -> x < length h /\ x <> 0) by (intros x Hx; apply filter_In in Hx as [Hx _]; exact (entry_there _ L x HL Hx)).
      unfold entry_answers in Q. left. destruct (filter _ L) as [|x [|y l]].
      + symmetry in Q. exact (voiced_none _ _ _ _ _ _ _ HL0 Q).
      + destruct Q as (z & Q & _); discriminate.
      + symmetry in Q. exact (voiced_many _ (x :: y :: l) _ _ ltac:(discriminate) T Q).
    - rewrite Hc in HN. destruct (entry_list_total _ HD _ He) as (L & HL). destruct (query_entries HP s _ _ key L Hs HN HL) as (ys & Q & _). congruence.
    - rewrite Hc in HN. destruct (item_list_total _ _ He) as (L & HL). destruct (query_items HP s _ _ L Hs HN HL) as (ys & Q & _). congruence.
    - rewrite Hc in HN. destruct (asserted HP s o _ m only skip Hs HN) as [_ [Q|[(i & Q & Hi)|[_ (j & Q)]]]]; [congruence| |destruct Q; apply HG].
      left. rewrite E in Q. symmetry in Q. destruct (overlooked_there s o only skip i HI Ho Hc Hi) as [T1 T2].
      refine (voiced_raised (NotExpected _ i) e _ _ Q); [repeat constructor; assumption|]. split; [assumption|apply HG].
  Qed.
End Parsed.
Lemma plain_presentable inp loc rk src c : parse_context inp loc rk src = Ok c -> no_deep_sections (c_heap c) ->
  (forall e l1 x y l2, n_type (hget (c_heap c) e) = SECTION -> n_elements (hget (c_heap c) e) = l1 ++ x :: y :: l2 -> ~ bare (c_heap c) x) -> presentable (c_heap c).
Proof.
  intros HP HD HB e. split; [exact (links_end HP (no_deep_end HP HD) e)|]. intro G. induction G as [e l1 x y l2 Ht E B|]; [|assumption]. exact (HB e l1 x y l2 Ht E B).
Qed.

(** * An example *)
From Verif Require Import QueryExamples.
Definition full_type (t : itype) : bool := match t with EMPTY_ELEMENT | FIELDSET | SECTION => false | _ => true end.
Definition tidy_section (h : heap) (e : nat) : bool :=
  match n_type (hget h e) with SECTION => forallb (fun x => full_type (n_type (hget h x))) (removelast (n_elements (hget h e))) | _ => true end.
Lemma full_bare h x : full_type (n_type (hget h x)) = true -> ~ bare h x.
Proof. intros H B. destruct B as [e Ht|e Ht _|e l y Ht _ _]; rewrite Ht in H; discriminate. Qed.
Lemma tidy_shows h : (forall e, tidy_section h e = true) -> forall e, ~ gap_inside h e.
Proof.
  intros H e G. induction G as [e l1 x y l2 Ht E B|]; [|assumption]. specialize (H e). unfold tidy_section in H. rewrite Ht, E, removelast_app in H by discriminate.
  rewrite forallb_app in H. apply andb_prop in H as [_ H]. change (removelast (x :: y :: l2)) with (x :: removelast (y :: l2)) in H. cbn [forallb] in H. apply andb_prop in H as [H _]. exact (full_bare h x H B).
Qed.
Lemma tidy_all h : forallb (tidy_section h) (seq 0 (length h)) = true -> forall e, tidy_section h e = true.
Proof.
  intros K e. rewrite forallb_forall in K. destruct (Nat.lt_ge_cases e (length h)) as [He|He]; [apply K, in_seq; lia|].
  unfold tidy_section, hget. rewrite nth_overflow by assumption. reflexivity.
Qed.
Lemma q_tidy : forallb (tidy_section (c_heap (ctx_of q_doc))) (seq 0 (length (c_heap (ctx_of q_doc)))) = true.
Proof. vm_compute. reflexivity. Qed.
Lemma q_no_deep : no_deep_sections (c_heap (ctx_of q_doc)).
Proof.
  assert (forallb (fun n => negb (n_deep_copy n)) (c_heap (ctx_of q_doc)) = true) as K by (vm_compute; reflexivity).
  revert K. generalize (c_heap (ctx_of q_doc)) as h. intros h K a i Ha. exfalso. rewrite forallb_forall in K. revert Ha. unfold hget.
  destruct (Nat.lt_ge_cases a (length h)) as [Hl|Hl]; [specialize (K _ (nth_In h document_node Hl)); destruct (n_deep_copy _); [discriminate K|discriminate]|].
  rewrite nth_overflow by assumption. discriminate.
Qed.
Lemma tidy_last h : (forall e, tidy_section h e = true) -> forall e l1 x y l2, n_type (hget h e) = SECTION -> n_elements (hget h e) = l1 ++ x :: y :: l2 -> ~ bare h x.
Proof. intros H e l1 x y l2 Ht E B. exact (tidy_shows h H e (gap_here h e l1 x y l2 Ht E B)). Qed.
Lemma q_presentable : presentable (c_heap (ctx_of q_doc)).
Proof. intro e. split; [exact (q_ends e)|]. exact (tidy_shows _ (tidy_all _ q_tidy) e). Qed.
