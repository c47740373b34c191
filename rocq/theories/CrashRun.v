(** CrashRun: the statements of PropCrash. *)
From Verif Require Import Base Types Messages Resolver Reporter Errors Context Elements SpecTree SpecResolve SpecRead SpecApi SpecQuery SpecLoad Reads ErrorCaches ApiDoc ApiInv ApiState ApiOps
  Session SessionInv SessionRun Faults QueryProofs LoadProofs SpecTouch TouchProofs TouchRuns RequireProofs PropTouchProofs ShowProofs PropParseProofs PropReadProofs ParseOutcome PropQueryProofs RefuseProofs SpecCrash CrashProofs.

Section Parsed.
  Context {inp : text} {loc : locale} {rk : reporter_kind} {src : option text} {c : ctx} (HP : parse_context inp loc rk src = Ok c).
  Let HD : Doc (c_heap c) := doc_of_parse inp loc rk src c HP.
  Let HR : forall s, reach c s -> Inv c s := inv_reach c HD.
  Let HM : forall v, proper (c_heap c) v -> mild (validation_error c v) := proper_mild HP.

  Lemma known_failing k (U : N -> Prop) e : (forall n, U n -> gives_up k n) -> known c U e -> failing c k e \/ e = Fuel.
  Proof.
    intros HU [(v & x & -> & H)|[(n & -> & H)|[->|[->| ->]]]]; [left; now apply (fl_error c k v)|left; apply fl_loader; auto|left; apply fl_key|left; apply fl_type|now right].
  Qed.
  Lemma raised_failing {A} k v e : proper (c_heap c) v -> @raised A (validation_error c v) = Raise e -> failing c k e.
  Proof.
    intros Hp. destruct (HM v Hp) as [[x Hx]|[Hx|Hx]]; rewrite Hx; cbn; intros [= <-]; [exact (fl_error c k v x Hx)|apply fl_key|apply fl_type].
  Qed.
  Lemma raised_comes {A} v : proper (c_heap c) v -> @raised A (validation_error c v) <> Raise Fuel.
  Proof. intro Hp. destruct (HM v Hp) as [[x Hx]|[Hx|Hx]]; rewrite Hx; discriminate. Qed.
  (** reading a value that can be there *)
  Lemma value_failing {A} k e (ld : loader A) req v x : (forall t n, ld t = LOther n -> gives_up k n) -> valued (n_type (hget (c_heap c) e)) = true ->
    value_outcome c e ld req v = Raise x -> failing c k x.
  Proof.
    intros Hl Ht. unfold value_outcome, absent_is, loaded. destruct v as [t|].
    - destruct (ld t) as [a|m|n] eqn:El; cbn [present]; [discriminate| |].
      + change (v_value_error c m e) with (validation_error c (BadValue m e)). destruct (raised (validation_error c (BadValue m e)) : res A) as [a|y] eqn:E; cbn [present]; [discriminate|].
        intros [= <-]. exact (raised_failing k (BadValue m e) y I E).
      + intros [= <-]. apply fl_loader. exact (Hl t n El).
    - destruct req; [|discriminate]. exact (raised_failing k (NoValue e) x Ht).
  Qed.
  Lemma in_turn_fails {A} (l : list (res A)) x : in_turn l (Raise x) -> In (Raise x) l.
  Proof. remember (Raise x) as r eqn:E. intro H. revert x E. induction H; intros z E; try discriminate; [right; now apply IHin_turn|injection E as ->; now left]. Qed.

  (** * Coming back *)
  Lemma dropped {A} (m : sM A) s e : snd ((let! _ := m in ret tt) s) = Raise e -> snd (m s) = Raise e.
  Proof. unfold mbind. destruct (m s) as [s1 [a|y]]; cbn; [discriminate|now intros [= ->]]. Qed.
  Lemma none_comes required b v m : proper (c_heap c) v -> none_found required b (validation_error c v) m <> Raise Fuel.
  Proof. intro Hp. unfold none_found. pose proof (@raised_comes found v Hp). destruct required as [[|]|], b; cbn; congruence. Qed.
  Lemma key_comes {A} (o : option A) s : snd (lift (key_or o) s : st * res A) <> Raise Fuel. Proof. destruct o; discriminate. Qed.
  Lemma low_all s : Inv c s -> low (length (s_objs s)) s.
  Proof. intro HI. split; [lia|]. intros a k y Ha Hy. apply (slot_lt c s a k y HI Ha Hy). Qed.
  Lemma touching_comes o P s x : touching c o P s x -> snd x = Raise Fuel -> exists j, ~ ends (c_heap c) j.
  Proof. intros (s' & v & -> & _ & _ & _ & [(-> & _)|(_ & H)]); [discriminate|auto]. Qed.
  Lemma no_section_ends s o : Inv c s -> o < length (s_objs s) -> o_class (oget s o) = CFieldset \/ o_class (oget s o) = CList -> ends (c_heap c) (o_instr (oget s o)).
  Proof.
    intros HI Ho Hc. pose proof (oo_class _ _ _ _ (iv_obj _ _ HI _ Ho)) as HF. apply (doc_ends _ HD). intro Et. rewrite Et in HF. destruct Hc as [Hc|Hc]; rewrite Hc in HF; discriminate HF.
  Qed.
  Theorem comes_back s k : reach c s -> subject k < length (s_objs s) -> callable k (o_class (oget s (subject k))) ->
    match k with Value _ _ _ _ | Values _ _ _ _ => False | _ => True end -> snd (run_call k s) = Raise Fuel -> endless (c_heap c) k.
  Proof.
    intros Hs Ho Hc Hk E. pose proof (HR s Hs) as HI.
    assert (HN : names s (subject k) (o_class (oget s (subject k))) (o_instr (oget s (subject k)))) by (repeat split; auto).
    pose proof (no_section_ends s (subject k) HI Ho) as HE.
    destruct k; cbn [run_call subject callable endless] in *; try contradiction; try (apply dropped in E).
    - exists (o_instr (oget s o)). intro He. rewrite Hc in HN. destruct (element_list_total _ HD _ He) as (L & HL). pose proof (query_single HP s _ _ what key required L Hs HN HL) as Q. rewrite E in Q.
      unfold single_answer in Q. destruct (filter _ L) as [|x [|y l]].
      + symmetry in Q. revert Q. exact (none_comes _ _ (NoElement _ _ _) _ I).
      + destruct what as [kd|]; [|destruct Q as (z & Q & _); discriminate]. destruct (readable _ kd); [destruct Q as [(z & Q & _)|[Q _]]; discriminate|].
        symmetry in Q. revert Q. exact (raised_comes (OtherKind _ _ _) I).
      + symmetry in Q. revert Q. refine (raised_comes (TooMany _ _ _) _). discriminate.
    - exists (o_instr (oget s o)). intro He. rewrite Hc in HN. destruct (element_list_total _ HD _ He) as (L & HL). destruct (query_elements HP s _ _ key L Hs HN HL) as (ys & Q & _). congruence.
    - exists (o_instr (oget s o)). intro He. rewrite Hc in HN. destruct (element_list_total _ HD _ He) as (L & HL). pose proof (query_plural HP s _ _ k key L Hs HN HL) as Q. rewrite E in Q.
      destruct Q as [(ys & Q & _)|(b & x & a & _ & _ & Q)]; [discriminate|]. destruct (readable _ k); [destruct Q; discriminate|]. symmetry in Q. revert Q. exact (raised_comes (OtherKind _ _ _) I).
    - rewrite (to_kind_is c k e s HI Ho) in E by (destruct Hc as [Hc|Hc]; rewrite Hc; reflexivity).
      assert (G : snd (if accepts k (n_type (hget (c_heap c) (o_instr (oget s e)))) then (yield_new k e s, Ok (length (s_objs s)))
                       else (s, raised (v_unexpected_element_type c None (o_instr (oget s e)) (expected_msg k)))) = Raise Fuel -> False).
      { destruct (accepts k _); cbn [snd]; [discriminate|]. exact (raised_comes (OtherKind _ _ _) I). }
      destruct (yield_slot k (oget s e)); [discriminate|]. destruct k, (o_yielded (oget s e)); try discriminate; exact (G E).
    - specialize (HE (or_introl Hc)). rewrite Hc in HN. destruct (entry_list_total _ HD _ HE) as (L & HL). pose proof (query_entry HP s _ _ key required L Hs HN HL) as Q. rewrite E in Q.
      unfold entry_answers in Q. destruct (filter _ L) as [|x [|y l]].
      + symmetry in Q. revert Q. exact (none_comes _ _ (NoElement _ _ _) _ I).
      + destruct Q as (z & Q & _); discriminate.
      + symmetry in Q. revert Q. refine (raised_comes (TooMany _ _ _) _). discriminate.
    - specialize (HE (or_introl Hc)). rewrite Hc in HN. destruct (entry_list_total _ HD _ HE) as (L & HL). destruct (query_entries HP s _ _ key L Hs HN HL) as (ys & Q & _). congruence.
    - specialize (HE (or_intror Hc)). rewrite Hc in HN. destruct (item_list_total _ _ HE) as (L & HL). destruct (query_items HP s _ _ L Hs HN HL) as (ys & Q & _). congruence.
    - destruct (comment_loaded HP s _ _ _ Hs HN) as (v & _ & Q). rewrite Q in E. revert E. unfold comment_outcome, absent_is, loaded. destruct (hollow_comment _ _); [discriminate|].
      pose proof (fun B => @raised_comes B (NoComment (o_instr (oget s o))) I) as G1. pose proof (fun m => @raised_comes A (BadComment m (o_instr (oget s o))) I) as G2. cbn [validation_error] in G1, G2.
      destruct v as [[|ch t]|]; [destruct required; [apply G1|discriminate]| |destruct required; [apply G1|discriminate]]. destruct (ld (ch :: t)) as [a|m|n]; cbn [present]; [discriminate| |discriminate].
      specialize (G2 m). destruct (raised _) as [a|y]; cbn [present]; [discriminate|]. congruence.
    - destruct (key_loaded HP s _ _ _ Hs HN) as [Q _]. rewrite Q in E. revert E. unfold key_outcome, loaded. destruct (read_key _ _) as [t|]; [|discriminate].
      destruct (ld t) as [a|m|n]; [discriminate| |discriminate]. exact (raised_comes (BadKey m _) I).
    - destruct (key_loaded HP s _ _ _ Hs HN) as [_ Q]. rewrite Q in E. revert E. unfold key_outcome, loaded, string_loader. destruct (read_key _ _) as [t|]; discriminate.
    - exact I.
    - rewrite Hc in HN. destruct (asserted HP s o _ m only skip Hs HN) as [_ [Q|[(i & Q & _)|[_ Q]]]]; [congruence| |assumption]. rewrite E in Q. symmetry in Q. exfalso. revert Q. exact (raised_comes (NotExpected _ _) I).
    - rewrite Hc in HN. destruct (asserted_entries HP s o _ m only skip Hs HN) as [[Q _]|[Q _]]; congruence.
    - unfold touch in E. unfold mbind at 1, the_obj in E. pose proof (named_valid _ _ _ _ HN) as HV. destruct (o_class (oget s o)) eqn:Ec.
      all: try discriminate E.
      + exact (touching_comes _ _ _ _ (touching_section c HD o s HI HV) E).
      + unfold mbind, ofuel in E. refine (touching_comes _ _ _ _ (touching_element c HD (length (s_objs s)) _ o s HI (low_all s HI) Ho _) E); lia.
      + unfold mbind, ofuel in E. refine (touching_comes _ _ _ _ (touching_element c HD (length (s_objs s)) _ o s HI (low_all s HI) Ho _) E); lia.
      + refine (touching_comes _ _ _ _ (touching_group c fieldset_children KFieldset o s _ _ _ HI HV) E); [now apply fieldset_spec|now apply fieldset_ending|now left].
      + refine (touching_comes _ _ _ _ (touching_group c list_children KList o s _ _ _ HI HV) E); [now apply list_spec|now apply list_ending|now right].
    - rewrite Hc in HN. destruct (required_when HP s o _ required Hs HN) as [[Q _]|[[Q _]|[_ Q]]]; [congruence..|assumption].
    - discriminate E.
    - revert E. unfold parent_of. unfold mbind at 1, the_obj. unfold mbind at 1, inode.
      destruct (o_class (oget s o)); try discriminate; try (destruct (itype_eqb _ _); [|discriminate]); destruct (o_parent (oget s o)); try discriminate; destruct (n_parent _); discriminate.
    - destruct (ends_dec c (o_instr (oget s o))) as [He|He]; [|now exists (o_instr (oget s o))]. exfalso.
      assert (o_class (oget s o) = CElement \/ o_class (oget s o) <> CElement) as [Ec|Ec] by (destruct (o_class (oget s o)); auto; right; discriminate).
      + revert E. unfold print_of. unfold mbind at 1, the_obj. unfold mbind at 1, inode. rewrite Ec. destruct (n_key _); discriminate.
      + destruct (shows_any HP s o _ _ Hs HN) as (t & Q & _); [auto|congruence|congruence].
  Qed.

  Theorem call_fails s k e : reach c s -> subject k < length (s_objs s) -> callable k (o_class (oget s (subject k))) ->
    snd (run_call k s) = Raise e -> failing c k e.
  Proof.
    intros Hs Ho Hc E. pose proof (HR s Hs) as HI. pose proof (iv_ctx _ _ HI) as Hx. pose proof (oo_class _ _ _ _ (iv_obj _ _ HI _ Ho)) as HF.
    assert (G : match k with Value _ _ _ _ | Values _ _ _ _ => False | _ => True end -> failing c k e).
    { intro Hk. pose proof (known_call c HM (gives_up k) (fun e => failing c k e \/ e = Fuel) (fun e => known_failing k _ e (fun n H => H)) k) as T.
      assert (failing c k e \/ e = Fuel) as [H|H]; [|assumption|subst e; apply fl_endless; now apply (comes_back s)].
      refine (proj2 (T _ s Hx) e E). destruct k; auto; try contradiction; cbn [gives_up]; try (intros u n Hu; now exists u); left; now apply fl_attribute. }
    destruct k as [| | | | | | |A o ld q|A o ld q| | | | | | | | | | |]; try (apply G; exact I); clear G; cbn [run_call subject callable] in *.
    - assert (names s o CList (o_instr (oget s o))) as HN by (repeat split; auto). rewrite Hc in HF. cbn [class_fits] in HF.
      assert (ends (c_heap c) (o_instr (oget s o))) as He by (apply (doc_ends _ HD); intro Et; rewrite Et in HF; discriminate).
      destruct (item_list_total _ _ He) as (L & HL). destruct (values_loaded HP s o _ L Hs HN HL) as (vs & Hv & T). specialize (T A ld q).
      unfold mbind in E. destruct (list_values o ld q s) as [s1 [a|y]]; cbn in E, T; [discriminate|]. injection E as ->.
      apply in_turn_fails, in_map_iff in T as ((x & v) & T & Hin). cbn [fst snd] in T. apply in_combine_l in Hin.
      destruct (item_list_from c _ L HL x Hin) as (e' & He'). destruct (doc_items _ HD e' x He') as [_ Ht].
      apply (value_failing (Values A o ld q) x ld q v e); [intros t n H; now exists t|rewrite Ht; reflexivity|exact T].
    - assert (names s o (o_class (oget s o)) (o_instr (oget s o))) as HN by (repeat split; auto).
      destruct (value_loaded HP s o _ _ Hs HN Hc) as (v & _ & T). specialize (T A ld q).
      unfold mbind in E. destruct (value_of o ld q s) as [s1 [a|y]]; cbn in E, T; [discriminate|]. injection E as ->.
      apply (value_failing (Value A o ld q) (o_instr (oget s o)) ld q v e); [intros t n H; now exists t| |now symmetry].
      destruct Hc as [Hc|[Hc|Hc]]; rewrite Hc in HF; cbn [class_fits] in HF; [|rewrite HF; reflexivity..].
      destruct (n_type (hget (c_heap c) (o_instr (oget s o)))); try reflexivity; discriminate HF.
  Qed.

  Theorem missing_fails s m e : reach c s -> snd (missing_error (A := unit) m s) = Raise e ->
    (exists v x, e = ValidationError x /\ validation_error c v = Ok x) \/ e = KeyError \/ e = TypeError \/ (e = AttributeError /\ o_class (oget s (began_at m)) <> CSection).
  Proof.
    intros Hs. revert m. fix IH 1. intros [k key [o|m]]; cbn [missing_error began_at]; [|apply IH]. clear IH. unfold mbind at 1, the_obj.
    assert (G : forall v, proper (c_heap c) v -> snd (@fail unit (fun c => validation_error c v) s) = Raise e ->
      (exists v x, e = ValidationError x /\ validation_error c v = Ok x) \/ e = KeyError \/ e = TypeError \/ (e = AttributeError /\ o_class (oget s o) <> CSection)).
    { intros v Hp. unfold fail, mbind, the_ctx. rewrite (same_error c s v (iv_ctx _ _ (HR s Hs))).
      destruct (HM v Hp) as [[x Hx]|[Hx|Hx]]; rewrite Hx; cbn; intros [= <-]; [left; now exists v, x|auto..]. }
    destruct (o_class (oget s o)) eqn:Ec; try (cbn; intros [= <-]; right; right; right; split; [reflexivity|discriminate]).
    exact (G (NoElement key (o_instr (oget s o)) (missing_error_msg k)) I).
  Qed.

  Theorem made_fails s o m e : reach c s ->
    In (Raise e) [snd (error_of o m s); snd (comment_error_of o m s); snd (key_error_of o m s); snd (value_error_of o m s)] -> e = KeyError \/ e = TypeError.
  Proof.
    intros Hs Hin. assert (K : forall v, proper (c_heap c) v -> validation_error (s_ctx s) v = Raise e -> e = KeyError \/ e = TypeError).
    { intros v Hp. rewrite (same_error c s v (iv_ctx _ _ (HR s Hs))). destruct (HM v Hp) as [[x Hx]|[Hx|Hx]]; rewrite Hx; intros [= <-]; auto. }
    destruct Hin as [E|[E|[E|[E|[]]]]]; cbn in E; [apply (K (BadElement m (o_instr (oget s o))) I)|apply (K (BadComment m (o_instr (oget s o))) I)
      |apply (K (BadKey m (o_instr (oget s o))) I)|apply (K (BadValue m (o_instr (oget s o))) I)]; exact E.
  Qed.
End Parsed.
