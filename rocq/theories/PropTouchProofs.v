(** PropTouchProofs: the statements of PropTouch for parsed documents. *)
From Verif Require Import Base Types Messages Resolver Reporter Errors Context Elements SpecTree SpecResolve SpecRead SpecApi SpecQuery SpecTouch SpecRequire ApiDoc ApiInv ApiState ApiOps Session SessionInv QueryProofs PropParseProofs PropReadProofs PropQueryProofs TouchProofs TouchRuns TouchCalls RequireProofs.

Section Parsed.
  Context {inp : text} {loc : locale} {rk : reporter_kind} {src : option text} {c : ctx} (HP : parse_context inp loc rk src = Ok c).
  Let HD : Doc (c_heap c) := doc_of_parse inp loc rk src c HP.
  Let HR : forall s, reach c s -> Inv c s := inv_reach c HD.

  Lemma named_valid s o cl e : names s o cl e -> valid s o cl.
  Proof. intros (H1 & H2 & _). split; assumption. Qed.
  Lemma raised_not_ok {A} x (a : A) : raised x <> Ok a. Proof. destruct x; discriminate. Qed.

  Lemma asserted s o e m only skip : reach c s -> names s o CSection e ->
    let v := snd (assert_all_touched o m only skip s) in
    (v = Ok tt <-> all_seen (c_heap c) s o only skip) /\
    (v = Ok tt \/
     (exists i, v = raised (v_unexpected_element c (message_text m i) i) /\ overlooked (c_heap c) s o only skip i) \/
     v = Raise Fuel /\ exists j, ~ ends (c_heap c) j).
  Proof.
    intros Hs HN v. destruct (assert_is c HD o m only skip s (HR s Hs) (named_valid _ _ _ _ HN)) as (s' & w & E & HI & H). subst v. rewrite E. cbn [snd].
    destruct H as [(_ & -> & H)|[(_ & i & -> & H)|(-> & H & H')]].
    - split; [tauto|now left].
    - split; [|right; left; now exists i]. split; intro K; [now apply raised_not_ok in K|]. exfalso. exact (overlooked_seen c HD o only skip s i (HR s Hs) (named_valid _ _ _ _ HN) K H).
    - split; [|right; right; now split]. split; intro K; [discriminate|contradiction].
  Qed.
  Lemma either_seen s o e only skip : reach c s -> names s o CSection e -> forall i, overlooked (c_heap c) s o only skip i -> ~ all_seen (c_heap c) s o only skip.
  Proof. intros Hs HN i H K. exact (overlooked_seen c HD o only skip s i (HR s Hs) (named_valid _ _ _ _ HN) K H). Qed.
  Lemma asserted_entries s o e m only skip : reach c s -> names s o CFieldset e ->
    snd (fieldset_assert_all_touched o m only skip s) = Ok tt /\ entries_seen (c_heap c) s o only skip \/
    snd (fieldset_assert_all_touched o m only skip s) = Raise TypeError /\ ~ entries_seen (c_heap c) s o only skip.
  Proof. intros Hs HN. exact (assert_entries_is c HD o m only skip s (HR s Hs) (named_valid _ _ _ _ HN)). Qed.

  Lemma used s x y : reach c s -> subject x < length (s_objs s) -> callable x (o_class (oget s (subject x))) ->
    let s' := fst (run_call x s) in
    (uses x (o_class (oget s (subject x))) -> touched s' (subject x)) /\
    (touched s' y -> touched s y \/ (y = subject x /\ uses x (o_class (oget s y))) \/ also_uses x s' y).
  Proof. intros Hs H1 H2. split; [now apply touched_used|]. now apply (touched_by c HD x s y (HR s Hs)). Qed.

  Lemma touched_section s o e : reach c s -> names s o CSection e ->
    let s' := fst (touch_section o s) in
    snd (touch_section o s) = Ok tt /\ touched s' o /\ (forall only skip m, snd (assert_all_touched o m only skip s') = Ok tt <-> all_opened (c_heap c) s o only skip) \/
    snd (touch_section o s) = Raise Fuel /\ exists j, ~ ends (c_heap c) j.
  Proof.
    intros Hs HN s'. destruct (touching_section c HD o s (HR s Hs) (named_valid _ _ _ _ HN)) as (s1 & v & E & HI & X & W & H). subst s'. rewrite E. cbn [fst snd].
    destruct H as [(-> & G & T & l & K & H)|(-> & H)]; [left|right; now split]. split; [reflexivity|]. split; [assumption|]. intros only skip m. rewrite (H only skip).
    pose proof (valid_ext _ _ _ _ X (named_valid _ _ _ _ HN)) as V.
    destruct (assert_is c HD o m only skip s1 HI V) as (s2 & w & E2 & HI2 & H2). rewrite E2. cbn [snd].
    destruct H2 as [(_ & -> & H2)|[(_ & i & -> & H2)|(-> & H2 & _)]].
    - tauto.
    - split; intro Q; [now apply raised_not_ok in Q|]. exfalso. exact (overlooked_seen c HD o only skip s1 i HI V Q H2).
    - split; intro Q; [discriminate|contradiction].
  Qed.

  Lemma required_when s o e b : reach c s -> names s o CSection e ->
    let v := snd (all_elements_required o b s) in
    (v = Ok tt /\ ready (c_heap c) s o) \/ (v = Raise AttributeError /\ ~ ready (c_heap c) s o) \/ (v = Raise Fuel /\ exists j, ~ ends (c_heap c) j).
  Proof.
    intros Hs HN v. destruct (ready_result c HD o b s (HR s Hs) (named_valid _ _ _ _ HN)) as (s' & w & E & HI & H). subst v. rewrite E. cbn [snd].
    destruct H as [(-> & H & _)|[(-> & H)|(-> & H)]]; auto.
  Qed.

  Lemma required_flag s o e s' y : reach c s -> names s o CSection e -> snd (all_elements_required o true s) = Ok tt ->
    goes_on_plainly (fst (all_elements_required o true s)) s' -> reached (c_heap c) (fst (all_elements_required o true s)) s' o y -> o_req (oget s' y) = true /\ Inv c s'.
  Proof.
    intros Hs HN Hv HG (H1 & H2 & H3). destruct (ready_result c HD o true s (HR s Hs) (named_valid _ _ _ _ HN)) as (s1 & w & E & HI & H). rewrite E in *. cbn [fst snd] in *.
    destruct H as [(_ & _ & X & F)|[(-> & _)|(-> & _)]]; try discriminate.
    pose proof (valid_ext _ _ _ _ X (named_valid _ _ _ _ HN)) as V. split; [exact (flag_of c HD s1 s' o y HI F V HG H1 H2 H3)|].
    apply (inherit_session c HD s1 s' HI HG).
  Qed.
  Lemma required_then s o e s' y : reach c s -> names s o CSection e -> snd (all_elements_required o true s) = Ok tt ->
    goes_on_plainly (fst (all_elements_required o true s)) s' -> reached (c_heap c) (fst (all_elements_required o true s)) s' o y ->
    (o_class (oget s' y) = CSection -> forall L what key req, element_list (c_heap c) (o_instr (oget s' y)) L -> filter (keyed (c_heap c) key) L = [] ->
       snd (query what y key req s') = raised (v_missing_element c key (o_instr (oget s' y)) (missing_message what))) /\
    (o_class (oget s' y) = CFieldset -> forall L key req, entry_list (c_heap c) (o_instr (oget s' y)) L -> filter (keyed (c_heap c) key) L = [] ->
       snd (entry_query y key req s') = raised (v_missing_element c key (o_instr (oget s' y)) Q_missing_fieldset_entry)).
  Proof.
    intros Hs HN Hv HG HY. destruct (required_flag s o e s' y Hs HN Hv HG HY) as [F HI]. destruct HY as (H1 & _). split; intro Hc.
    - intros L what key req HL EL. assert (N : names s' y CSection (o_instr (oget s' y))) by (repeat split; assumption).
      pose proof (query_answer c HD what y _ key req s' L HI N HL) as Q. rewrite EL in Q. unfold single_answer in Q. rewrite F in Q. unfold none_found in Q. destruct req as [[|]|]; exact Q.
    - intros L key req HL EL. assert (N : names s' y CFieldset (o_instr (oget s' y))) by (repeat split; assumption).
      pose proof (entry_answer c HD y _ key req s' L HI N HL) as Q. rewrite EL in Q. unfold entry_answers in Q. rewrite F in Q. unfold none_found in Q. destruct req as [[|]|]; exact Q.
  Qed.
End Parsed.
