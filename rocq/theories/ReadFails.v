(** ReadFails: reading values, comments and keys fails as documented. *)
From Verif Require Import Base Types Messages Resolver Reporter Errors Context Elements SpecTree SpecResolve SpecRead SpecApi SpecQuery SpecLoad Reads ErrorCaches ApiDoc ApiInv ApiState ApiOps
  Session SessionInv SessionRun Faults QueryProofs LoadProofs PropParseProofs PropReadProofs ParseOutcome PropQueryProofs SpecPrint PrintProofs RefuseProofs SpecCrash CrashProofs CrashRun.

Section Parsed.
  Context {inp : text} {loc : locale} {rk : reporter_kind} {src : option text} {c : ctx} (HP : parse_context inp loc rk src = Ok c).
  Context (HK : c_reporter c <> TerminalReporter \/ no_deep_copies (c_heap c)).
  Local Notation h := (c_heap c).
  Let HD : Doc h := doc_of_parse inp loc rk src c HP.
  Let HR : forall s, reach c s -> Inv c s := inv_reach c HD.

  Lemma fine {A} k v e : Forall (fun e => e < length h) (concerned v) -> reportable h v -> @raised A (validation_error c v) = Raise e -> as_documented c k e.
  Proof.
    intros Hc Hv. destruct (proj2 (reportable_ok HP v Hc HK) Hv) as [x Hx]. rewrite Hx. cbn. intros [= <-]. left. now exists v, x.
  Qed.
  Lemma loaded_fine {A} k (ld : loader A) t v e : (forall t n, ld t = LOther n -> gives_up k n) -> (forall m, Forall (fun e => e < length h) (concerned (v m)) /\ reportable h (v m)) ->
    loaded ld t (fun m => validation_error c (v m)) = Raise e -> as_documented c k e.
  Proof.
    intros Hl Hv. unfold loaded. destruct (ld t) as [a|m|n] eqn:El; [discriminate|apply fine; apply Hv|]. intros [= <-]. right. exists n. split; [reflexivity|exact (Hl t n El)].
  Qed.
  Lemma present_fine {A} (x : res A) e : present x = Raise e -> x = Raise e. Proof. destruct x; [discriminate|now intros [= ->]]. Qed.
  Lemma value_fine {A} k e (ld : loader A) req v x : (forall t n, ld t = LOther n -> gives_up k n) -> valued (n_type (hget h e)) = true ->
    value_outcome c e ld req v = Raise x -> as_documented c k x.
  Proof.
    intros Hl Ht. assert (0 < e < length h) as He by (destruct (placed_or HP e) as [He|He]; [assumption|rewrite He in Ht; discriminate]).
    unfold value_outcome, absent_is. destruct v as [t|].
    - intro E. apply present_fine in E. revert E. apply (loaded_fine k ld t (fun m => BadValue m e) x Hl). intro m. split; [repeat constructor; lia|]. split; [lia|].
      intros _. apply no_gap. intro Es. rewrite Es in Ht. discriminate.
    - destruct req; [|discriminate]. apply (fine k (NoValue e)); [repeat constructor; lia|]. cbn [reportable]. destruct (n_type (hget h e)); try exact I; discriminate.
  Qed.

  Theorem reading_fails s k e : reach c s -> subject k < length (s_objs s) -> callable k (o_class (oget s (subject k))) ->
    plain_reading h (o_instr (oget s (subject k))) k -> snd (run_call k s) = Raise e -> as_documented c k e.
  Proof.
    intros Hs Ho Hc Hk E. pose proof (HR s Hs) as HI. pose proof (oo_class _ _ _ _ (iv_obj _ _ HI _ Ho)) as HF. pose proof (oo_instr _ _ _ _ (iv_obj _ _ HI _ Ho)) as HL.
    assert (HN : names s (subject k) (o_class (oget s (subject k))) (o_instr (oget s (subject k)))) by (repeat split; auto).
    destruct k as [| | | | | | |A o ld q|A o ld q|A o ld q|A o ld|o| | | | | | | |]; try contradiction Hk; cbn [run_call subject callable plain_reading] in *; apply dropped in E.
    - rewrite Hc in HN, HF. cbn [class_fits] in HF.
      assert (ends h (o_instr (oget s o))) as He by (apply (doc_ends _ HD); intro Et; rewrite Et in HF; discriminate).
      destruct (item_list_total _ _ He) as (L & HLs). destruct (values_loaded HP s o _ L Hs HN HLs) as (vs & Hv & T). specialize (T A ld q). rewrite E in T.
      apply in_turn_fails, in_map_iff in T as ((x & v) & T & Hin). cbn [fst snd] in T. apply in_combine_l in Hin.
      destruct (item_list_from c _ L HLs x Hin) as (e' & He'). destruct (doc_items _ HD e' x He') as [_ Ht].
      apply (value_fine (Values A o ld q) x ld q v e); [intros t n H; now exists t|rewrite Ht; reflexivity|exact T].
    - destruct (value_loaded HP s o _ _ Hs HN Hc) as (v & _ & T). specialize (T A ld q). rewrite E in T.
      apply (value_fine (Value A o ld q) (o_instr (oget s o)) ld q v e); [intros t n H; now exists t| |now symmetry].
      destruct Hc as [Hc|[Hc|Hc]]; rewrite Hc in HF; cbn [class_fits] in HF; [|rewrite HF; reflexivity..].
      destruct (n_type (hget h (o_instr (oget s o)))); try reflexivity; discriminate HF.
    - destruct Hk as [H0 Hh]. destruct (comment_loaded HP s _ _ _ Hs HN) as (v & V & Q). rewrite Q in E. revert E. unfold comment_outcome, absent_is.
      assert (hollow_comment h (o_instr (oget s o)) = false) as ->.
      { unfold hollow_comment. destruct (n_comments _) as [[|x [|]]|]; try reflexivity. specialize (Hh x eq_refl). destruct (l_text x); [reflexivity|congruence]. }
      assert (G : (if q then raised (v_missing_comment c (o_instr (oget s o))) else Ok None : res (option A)) = Raise e -> as_documented c (Comment A o ld q) e).
      { destruct q; [|discriminate]. apply (fine _ (NoComment (o_instr (oget s o)))); [repeat constructor; lia|exact H0]. }
      destruct v as [[|ch t]|]; [exact G| |exact G]. intro E. apply present_fine in E. revert E.
      apply (loaded_fine _ ld (ch :: t) (fun m => BadComment m (o_instr (oget s o)))); [intros u n H; now exists u|]. intro m. split; [repeat constructor; lia|]. split; [assumption|].
      intro En. unfold comment_text in V. rewrite En in V. discriminate V.
    - destruct Hk as [H0 Ht]. destruct (key_loaded HP s _ _ _ Hs HN) as [Q _]. rewrite Q in E. revert E. unfold key_outcome.
      assert (exists t, read_key h (o_instr (oget s o)) = Some t) as [t ->].
      { pose proof (doc_key _ HD (o_instr (oget s o)) ltac:(lia) Ht) as K. unfold read_key. destruct (n_key _) as [t|]; [|congruence]. exists t. destruct (n_type _); try reflexivity. congruence. }
      apply (loaded_fine _ ld t (fun m => BadKey m (o_instr (oget s o)))); [intros u n H; now exists u|]. intro m. split; [repeat constructor; lia|]. now split.
    - exfalso. destruct (key_loaded HP s _ _ _ Hs HN) as [_ Q]. rewrite Q in E. revert E. unfold key_outcome, loaded, string_loader.
      assert (exists t, read_key h (o_instr (oget s o)) = Some t) as [t ->]; [|discriminate].
      unfold read_key. destruct (doc_parent _ HD (o_instr (oget s o)) ltac:(lia)) as (p & Ep & Hp & _ & _ & Kp). pose proof (doc_key _ HD (o_instr (oget s o)) ltac:(lia)) as K.
      destruct (n_type (hget h (o_instr (oget s o)))) eqn:Et; try (destruct (n_key (hget h (o_instr (oget s o)))) as [t|]; [now exists t|]; exfalso; apply K; [discriminate|reflexivity]).
      rewrite Ep. specialize (Kp (or_introl eq_refl)). pose proof (doc_key _ HD p) as K2. destruct (n_key (hget h p)) as [t|]; [now exists t|]. exfalso. apply K2; [|intro Ei|reflexivity].
      + split; [|lia]. destruct p; [|lia]. destruct (doc_root _ HD) as (_ & Ed & _). unfold is_element in Kp. rewrite Ed in Kp. intuition discriminate.
      + unfold is_element in Kp. rewrite Ei in Kp. intuition discriminate.
  Qed.
End Parsed.
