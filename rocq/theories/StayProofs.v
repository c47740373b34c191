(** StayProofs: what programs hold in their hands stays what it is. *)
From Verif Require Import Base Types Scan Analyzer TokenStep HeapFacts AnalyzerInv AnalyzerLoop SpecTree AnalyzerTree
  AnalyzerFinal AnalyzerCopies Resolver SpecResolve ResolverIndex ResolverFields ResolverSections ResolverFinal Messages
  Reporter Errors Context SpecText SpecRead Reads ReadOps ReadLinks PropReadProofs SpecApi Elements SpecQuery ErrorCaches ApiDoc ApiInv ApiState ApiOps
  Session SessionInv SessionRun QueryProofs NumberOrder SpecStay.

Section Own.
  Context (h0 : heap) (cs cn : list (text * list nat)) (HA : Analysed h0 cs cn) (r : heap) (HR : Resolved h0 r).
  Lemma members_nodup e : NoDup (own_items r e) /\ NoDup (own_entries r e).
  Proof.
    change (own_items r e) with (olist (n_items (hget r e))). change (own_entries r e) with (olist (n_entries (hget r e))).
    destruct (Nat.lt_ge_cases e (length h0)) as [He|He].
    - destruct (res_fields h0 r HR e) as (_ & _ & E1 & E2 & E3 & _). rewrite ?E1, ?E2, ?E3. rewrite (d_items _ (an_d _ _ _ HA) e He), (d_entries _ (an_d _ _ _ HA) e He).
      unfold ids. split; apply NoDup_filter, seq_NoDup.
    - pose proof (res_len h0 r HR) as HL. unfold hget. rewrite nth_overflow by lia. split; constructor.
  Qed.
End Own.

Lemma inj_nodup {A B} (f : A -> B) l : NoDup (map f l) -> forall x y, In x l -> In y l -> f x = f y -> x = y.
Proof.
  induction l as [|a l IH]; intros N x y Hx Hy E; [destruct Hx|]. cbn in N. apply NoDup_cons_iff in N as [N1 N2].
  destruct Hx as [<-|Hx], Hy as [<-|Hy]; [reflexivity| | |now apply IH]; exfalso; apply N1; [rewrite E|rewrite <- E]; now apply in_map.
Qed.

Section Parsed.
  Context {inp : text} {loc : locale} {rk : reporter_kind} {src : option text} {c : ctx} (HP : parse_context inp loc rk src = Ok c).
  Local Notation h := (c_heap c).
  Let HD : Doc h := doc_of_parse inp loc rk src c HP.
  Let HR : forall s, reach c s -> Inv c s := inv_reach c HD.

  Lemma own_nodup e : NoDup (own_items h e) /\ NoDup (own_entries h e).
  Proof. destruct (parsed HP) as (h0 & cs & cn & HA & HR0). exact (members_nodup h0 cs cn HA h HR0 e). Qed.
  Lemma item_path e L : item_list h e L -> forall p, path h e p -> forall x, In x L -> exists e', In e' p /\ In x (own_items h e').
  Proof.
    induction 1 as [e [A B]|e m l A H IH|e t l [A B] H IH]; intros p Hp x Hx.
    - exists e. split; [inversion Hp; now left|assumption].
    - inversion Hp as [? E1 E2|? m' q Hf Hq]; subst; [unfold mirrors in A; congruence|]. assert (m' = m) as -> by (destruct Hf as [Hf|[Hf _]]; unfold mirrors in A; congruence).
      destruct (IH q Hq x Hx) as (e' & H1 & H2). exists e'. split; [now right|assumption].
    - inversion Hp as [? E1 E2|? m' q Hf Hq]; subst; [congruence|]. assert (m' = t) as -> by (destruct Hf as [Hf|[_ Hf]]; congruence).
      apply in_app_or in Hx as [Hx|Hx]; [|exists e; split; [now left|assumption]]. destruct (IH q Hq x Hx) as (e' & H1 & H2). exists e'. split; [now right|assumption].
  Qed.
  Lemma item_list_nodup e L : item_list h e L -> NoDup L.
  Proof.
    intro H. destruct (ends_path h e (item_list_ends h e L H)) as (p & Hp). revert p Hp. induction H as [e [A B]|e m l A H IH|e t l [A B] H IH]; intros p Hp.
    - apply own_nodup.
    - inversion Hp as [? E1 E2|? m' q Hf Hq]; subst; [unfold mirrors in A; congruence|]. assert (m' = m) as -> by (destruct Hf as [Hf|[Hf _]]; unfold mirrors in A; congruence). exact (IH q Hq).
    - pose proof (path_nodup h e p Hp) as N. inversion Hp as [? E1 E2|? m' q Hf Hq]; subst; [congruence|]. assert (m' = t) as -> by (destruct Hf as [Hf|[_ Hf]]; congruence).
      apply nodup_app; [exact (IH q Hq)|apply own_nodup|]. intros x Hx Hy. destruct (item_path t l H q Hq x Hx) as (e' & H1 & H2).
      pose proof (doc_own h HD e x (or_intror (or_introl Hy))) as P1. pose proof (doc_own h HD e' x (or_intror (or_introl H2))) as P2.
      apply NoDup_cons_iff in N as [N _]. apply N. congruence.
  Qed.
  Lemma entry_list_nodup e L : entry_list h e L -> NoDup L.
  Proof.
    induction 1 as [e [A B]|e m l A H IH|e t l l' [A B] H IH HW]; [apply own_nodup|assumption|].
    assert (G : NoDup l' /\ forall x, In x l' -> ~ In x (own_entries h e)).
    { clear H. induction HW as [|x l l' Hn HW IHW|x l l' Hn HW IHW]; [split; [constructor|intros x []]| |].
      - apply NoDup_cons_iff in IH as [N1 N2]. destruct (IHW N2) as [M1 M2]. split.
        + constructor; [|assumption]. intro Hx. apply N1. eapply without_sub; eassumption.
        + intros y [<-|Hy]; [|auto]. intro Hy. apply Hn. exists x. split; [assumption|reflexivity].
      - apply NoDup_cons_iff in IH as [_ N2]. auto. }
    destruct G as [G1 G2]. apply nodup_app; [assumption|apply own_nodup|]. intros x H1 H2. exact (G2 x H1 H2).
  Qed.

  Theorem document_stays s : reach c s ->
    c_input (s_ctx s) = c_input c /\ c_locale (s_ctx s) = c_locale c /\ c_reporter (s_ctx s) = c_reporter c /\ c_source (s_ctx s) = c_source c /\
    c_meta (s_ctx s) = c_meta c /\ c_line_count (s_ctx s) = c_line_count c /\ length (c_heap (s_ctx s)) = length h /\
    forall i, same_instruction (hget (c_heap (s_ctx s)) i) (hget h i).
  Proof.
    intro Hs. destruct (iv_ctx _ _ (HR s Hs)) as [C1 C2]. rewrite C1. cbn. repeat (split; [reflexivity|]). split; [apply C2|]. intro i.
    pose proof (ca_bare _ _ _ _ C2 i) as E. unfold bare in E. cbn in E. injection E. intros. unfold same_instruction. repeat split; assumption.
  Qed.

  Lemma goes_ext s s' : Inv c s -> goes_on s s' -> ext s s'.
  Proof.
    intros HI H. revert HI. induction H as [s|s k s' Ho Hc H IH]; intro HI; [apply ext_refl|]. destruct (ok_call c HD k s HI Ho Hc) as [H1 H2].
    eapply ext_trans; [exact H2|exact (IH H1)].
  Qed.
  Theorem objects_remain s s' o : reach c s -> goes_on s s' -> o < length (s_objs s) -> remains s s' o.
  Proof.
    intros Hs Hg Ho. destruct (goes_ext s s' (HR s Hs) Hg) as [L H]. destruct (H o Ho) as [A1 A2 A3 A4 A5 A6 A7]. unfold remains. cbv zeta.
    split; [lia|]. repeat (split; [assumption|]). split; [|exact A6]. intros l Hl. exact (proj1 (A5 l Hl)).
  Qed.

  Lemma one_child s o1 o2 p : Inv c s -> o1 < length (s_objs s) -> o2 < length (s_objs s) -> ends h (o_instr (oget s p)) ->
    o_parent (oget s o1) = Some p -> o_parent (oget s o2) = Some p -> o_class (oget s o1) = o_class (oget s o2) -> o_instr (oget s o1) = o_instr (oget s o2) ->
    o_class (oget s o1) = CSectionElement \/ o_class (oget s o1) = CEntry \/ o_class (oget s o1) = CItem -> o1 = o2.
  Proof.
    intros HI H1 H2 He P1 P2 Ec Ei Hc. pose proof (oo_home _ _ _ _ (iv_obj _ _ HI o1 H1) p P1) as M1. pose proof (oo_home _ _ _ _ (iv_obj _ _ HI o2 H2) p P2) as M2. rewrite <- Ec in M2.
    pose proof (oo_parent _ _ _ _ (iv_obj _ _ HI o1 H1)) as Q. rewrite P1 in Q. destruct Q as [Hp Cp].
    assert (exists l, o_children (oget s p) = Some l /\ In o1 l /\ In o2 l) as (l & Hl & I1 & I2).
    { destruct Hc as [Hc|[Hc|Hc]]; rewrite Hc in M1, M2; destruct M1 as (l & L1 & I1); destruct M2 as (l' & L2 & I2); exists l; (split; [assumption|]; split; [assumption|]); congruence. }
    pose proof (ki_list _ _ _ _ _ (oo_kids _ _ _ _ (iv_obj _ _ HI p ltac:(lia)) l Hl) He) as K. rewrite Cp in K.
    apply (inj_nodup (fun y => o_instr (oget s y)) l); auto.
    destruct Hc as [Hc|[Hc|Hc]]; rewrite Hc in K; cbn [parent_class kid_list] in K; [exact (element_list_nodup h HD _ _ K)|exact (entry_list_nodup _ _ K)|exact (item_list_nodup _ _ K)].
  Qed.
  Theorem one_object s o1 o2 p : reach c s -> o1 < length (s_objs s) -> o2 < length (s_objs s) -> ends h (o_instr (oget s p)) ->
    o_parent (oget s o1) = Some p -> o_parent (oget s o2) = Some p -> o_class (oget s o1) = o_class (oget s o2) -> o_instr (oget s o1) = o_instr (oget s o2) -> o1 = o2.
  Proof.
    intros Hs H1 H2 He P1 P2 Ec Ei. pose proof (HR s Hs) as HI.
    pose proof (oo_home _ _ _ _ (iv_obj _ _ HI o1 H1) p P1) as M1. pose proof (oo_home _ _ _ _ (iv_obj _ _ HI o2 H2) p P2) as M2. rewrite <- Ec in M2.
    assert (G : (exists e k, e < o1 /\ kind_class k = o_class (oget s o1) /\ o_class (oget s e) = CSectionElement /\ o_parent (oget s e) = Some p /\ yield_slot k (oget s e) = Some o1) ->
                (exists e k, e < o2 /\ kind_class k = o_class (oget s o1) /\ o_class (oget s e) = CSectionElement /\ o_parent (oget s e) = Some p /\ yield_slot k (oget s e) = Some o2) -> o1 = o2).
    { intros (e1 & k1 & A1 & A2 & A3 & A4 & A5) (e2 & k2 & B1 & B2 & B3 & B4 & B5).
      destruct (oo_slot _ _ _ _ (iv_obj _ _ HI e1 ltac:(lia)) k1 o1 A5) as (_ & _ & _ & I1 & _). destruct (oo_slot _ _ _ _ (iv_obj _ _ HI e2 ltac:(lia)) k2 o2 B5) as (_ & _ & _ & I2 & _).
      assert (e1 = e2) as <- by (apply (one_child s e1 e2 p); auto; try lia; try congruence).
      assert (k1 = k2) as <- by (rewrite <- A2 in B2; destruct k1, k2; cbn in B2; congruence). congruence. }
    destruct (o_class (oget s o1)) eqn:E1; try contradiction; try (now apply G); (apply (one_child s o1 o2 p); auto; rewrite E1; auto).
  Qed.
End Parsed.
