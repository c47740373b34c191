(** CanonProofs: lemmas for C14. *)
From Verif Require Import Base Regex Grammar Scan ScanProofs Types Messages Analyzer TokenStep StepProofs HeapFacts AnalyzerLoop AnalyzerFinal AnalyzerCopies
  SpecResolve Resolver ResolverIndex ResolverFinal ResolverComments ParseErrors ParseContext ParseOutcome Reporter Errors Elements SpecText SpecTree SpecRead SpecApi SpecQuery Context SpecLoad SpecRaw Session PropRawProofs
  SpecCanon CanonRun CanonBuild.

Lemma loop_runs inp st st' fuel : runs inp st st' -> length inp <= a_index st' -> loop inp fuel st = SOk st' \/ loop inp fuel st = SFuel.
Proof.
  intro H. revert fuel. induction H as [st|st st1 st2 Hi Hs Hr IH]; intros fuel Hd.
  - destruct fuel; cbn [loop]; (destruct (Nat.ltb_spec (a_index st) (length inp)); [lia|auto]).
  - destruct fuel; cbn [loop]; (destruct (Nat.ltb_spec (a_index st) (length inp)); [|lia]); [auto|]. rewrite Hs. now apply IH.
Qed.

Lemma analyze_runs inp st : runs inp init_ast st -> length inp <= a_index st -> a_comments st = None ->
  exists st' lc, analyze inp = AOk st' lc /\ a_heap st' = a_heap st /\ a_cs st' = a_cs st /\ a_cn st' = a_cn st.
Proof.
  intros H Hd Hc. pose proof (analyze_reach inp) as Ha. unfold analyze in *. destruct inp as [|c t] eqn:E.
  - inversion H; subst; [|cbn in *; lia]. exists init_ast, 1. repeat split.
  - rewrite <- E in *. destruct (loop_runs inp init_ast st (length inp) H Hd) as [El|El]; rewrite El in *; [|contradiction].
    eexists. eexists. split; [reflexivity|]. repeat split.
Qed.

Lemma canonical_parsed x loc rk src : document x ->
  exists c, parse_context (canonical x) loc rk src = Ok c /\ raw_tree (canonical x) (c_heap c) 0 x.
Proof.
  intros (els & subs & -> & Hels & Hsubs).
  destruct (run_document (canonical (RawDocument (els ++ subs))) els subs Hels Hsubs eq_refl) as (st & R & I & C & S & N & T).
  destruct (analyze_runs _ _ R ltac:(lia) C) as (st' & lc & Ha & Eh & Es & En). eexists. split.
  - apply parse_ok. exists st', lc, (a_heap st'). split; [exact Ha|]. split; [|reflexivity].
    eapply resolve_nothing; [eapply analysed; exact Ha|congruence|congruence].
  - cbn [c_heap]. now rewrite Eh.
Qed.

Lemma round_trip x loc rk src : document x ->
  exists c, parse_context (canonical x) loc rk src = Ok c /\
    (reach c (MkSt c [start_obj CSection 0]) /\ names (MkSt c [start_obj CSection 0]) 0 CSection 0) /\
    forall s o cl, reach c s -> names s o cl 0 -> snd (raw_of o s) = Ok x.
Proof.
  intro Hx. destruct (canonical_parsed x loc rk src Hx) as (c & Hc & T). exists c. split; [exact Hc|]. split; [split|].
  - exists (MkSt c [start_obj CSection 0]). split; constructor.
  - split; [cbn; lia|]. split; reflexivity.
  - intros s o cl Hs Hn. exact (raw_complete Hc s o cl 0 x Hs Hn T).
Qed.

Lemma one_text x y : document x -> document y -> canonical x = canonical y -> x = y.
Proof.
  intros Hx Hy E. destruct (round_trip x Messages.en TextReporter None Hx) as (c & Hc & [R N] & Rx).
  destruct (round_trip y Messages.en TextReporter None Hy) as (c' & Hc' & _ & Ry). rewrite <- E, Hc in Hc'. injection Hc' as <-.
  specialize (Rx _ _ _ R N). specialize (Ry _ _ _ R N). congruence.
Qed.
