(** ParseContext: the contexts parsing reports in are well formed; outcomes of parsing. *)
From Coq Require Import Relations.
From Verif Require Import Base Types Scan Messages Analyzer TokenStep ScanProofs ScanFacts StepProofs HeapFacts AnalyzerInv
  AnalyzerLoop StepChange SpecText AnalyzerText SpecTree AnalyzerTree AnalyzerFinal AnalyzerBounds AnalyzerCopies
  Resolver SpecResolve ResolverIndex ResolverFields ResolverSections ResolverFinal ResolverComments
  Reporter Errors Context ReporterFacts ReporterTags ParseErrors.

(** * Shapes *)

Lemma shape_of h : SInv h -> DInv h -> Shape h.
Proof. intros HS [D1 D2 D3 _]. constructor; assumption. Qed.

Lemma text_fields x y : text_part x = text_part y ->
  n_line x = n_line y /\ n_ranges x = n_ranges y /\ n_key x = n_key y /\ n_value x = n_value y /\ n_parent x = n_parent y /\
  n_elements x = n_elements y /\ n_items x = n_items y /\ n_entries x = n_entries y /\ n_conts x = n_conts y /\
  n_lines x = n_lines y /\ n_end x = n_end y /\ n_template x = n_template y /\ n_deep_copy x = n_deep_copy y /\ ncls x = ncls y.
Proof. unfold text_part. intro H. repeat split; congruence. Qed.

Lemma shape_text h0 h : Shape h0 -> same_text h0 h -> Shape h.
Proof.
  intros [[S1 S2 S3 S4] E1 E2 E3] [Hl Ht].
  assert (forall i, ncls (hget h i) = ncls (hget h0 i)) as Hc by (intro i; apply text_fields, Ht).
  assert (forall i, n_parent (hget h i) = n_parent (hget h0 i)) as Hp by (intro i; apply text_fields, Ht).
  assert (forall i, odepth (hget h i) = odepth (hget h0 i)) as Ho.
  { intro i. unfold odepth. rewrite Hc. destruct (text_fields _ _ (Ht i)) as (_ & -> & _). reflexivity. }
  assert (forall f g, (forall i, f (hget h i) = g (hget h0 i)) -> ids f h = ids g h0) as Hids.
  { intros f g H. unfold ids. rewrite Hl. apply filter_ext. exact H. }
  constructor; [constructor|..].
  - lia.
  - now rewrite Hc.
  - now rewrite Hp.
  - intros i Hi. rewrite Hl in Hi. destruct (S4 i Hi) as (p & P1 & P2 & P3). exists p. rewrite Hp. split; [assumption|]. split; [assumption|].
    unfold placed in *. rewrite Hc. destruct (ncls (hget h0 i)); try exact P3.
    + destruct P3 as (A1 & A2 & A3). unfold sec_like in *. rewrite Hc, !Ho. split; [assumption|]. split; [assumption|].
      intros j Hj. rewrite Hc, Ho. now apply A3.
    + destruct P3 as (A1 & A2). unfold sec_like in *. rewrite Hc. split; [assumption|]. intros j Hj. rewrite Hc. now apply A2.
    + destruct P3 as (A1 & A2). rewrite Hc. split; [assumption|]. intros j Hj. rewrite Hc, Hp. now apply A2.
    + destruct P3 as (A1 & A2). rewrite Hc. split; [assumption|]. intros j Hj. rewrite Hc, Hp. now apply A2.
  - intros p Hlt. rewrite Hl in Hlt. destruct (text_fields _ _ (Ht p)) as (_ & _ & _ & _ & _ & -> & _). rewrite E1 by assumption.
    symmetry. apply Hids. intro i. unfold elem_of, has_parent, is_cls. now rewrite Hc, Hp.
  - intros p Hlt. rewrite Hl in Hlt. destruct (text_fields _ _ (Ht p)) as (_ & _ & _ & _ & _ & _ & -> & _). rewrite E2 by assumption.
    symmetry. apply Hids. intro i. unfold item_of, has_parent, is_cls. now rewrite Hc, Hp.
  - intros p Hlt. rewrite Hl in Hlt. destruct (text_fields _ _ (Ht p)) as (_ & _ & _ & _ & _ & _ & _ & -> & _). rewrite E3 by assumption.
    symmetry. apply Hids. intro i. unfold entry_of, has_parent, is_cls. now rewrite Hc, Hp.
Qed.

Lemma Forall_tl_get (P : node -> Prop) h : Forall P (tl h) -> forall i, 0 < i < length h -> P (hget h i).
Proof.
  intros H i Hi. rewrite Forall_forall in H. apply H. destruct h as [|d l]; cbn in *; [lia|]. destruct i as [|i]; [lia|]. cbn. apply nth_In. lia.
Qed.
Lemma nested_range inp rs : nested inp rs -> rget rs R_line <> None.
Proof. intros (b & e & H & _). congruence. Qed.
Lemma faithful_ok inp lc l : leaf_faithful inp l -> l_line l < lc -> leaf_ok lc l.
Proof. intros [H _] Hl. split; [assumption|]. now apply nested_range in H. Qed.
Lemma faithful_node_ok inp lc n : node_faithful inp n -> node_bound lc n -> node_ok lc n.
Proof.
  intros (F1 & _ & _ & _ & _ & F6) (B1 & B2 & _). split; [assumption|]. split; [now apply nested_range in F1|].
  rewrite Forall_forall in *. intros l Hl. apply faithful_ok with inp; auto.
Qed.

(** an analysed heap after part of the resolution *)
Lemma wf_resolved inp loc rk src h0 h meta lc :
  WF (MkCtx inp loc rk src h0 meta lc) -> (forall k, k = 0 \/ length h0 <= k -> n_comments (hget h0 k) = None) ->
  same_text h0 h -> comments_from h0 h -> WF (MkCtx inp loc rk src h meta lc).
Proof.
  intros [W1 W2 W3 W4 W5] Hd Ht Hc. constructor; cbn [c_heap c_meta c_input c_line_count] in *; try assumption.
  - now apply shape_text with h0.
  - intros i Hi. rewrite (proj1 Ht) in Hi. destruct (W2 i Hi) as (A1 & A2 & A3).
    destruct (text_fields _ _ (proj2 Ht i)) as (T1 & T2 & _ & _ & _ & _ & _ & _ & T3 & T4 & T5 & _).
    unfold node_ok, hanging. rewrite T1, T2, T3, T4, T5. split; [assumption|]. split; [assumption|].
    unfold hanging in A3. rewrite !Forall_app in *. split; [|tauto]. destruct (Hc i) as [k Hk]. rewrite Hk.
    destruct (le_lt_dec (length h0) k); [rewrite Hd by auto; constructor|].
    destruct (Nat.eq_dec k 0); [rewrite Hd by auto; constructor|].
    destruct (W2 k ltac:(lia)) as (_ & _ & A4). unfold hanging in A4. rewrite !Forall_app in A4. tauto.
  - intros i Hi. rewrite (proj1 Ht) in Hi. destruct (W3 i Hi) as (A1 & A2 & A3 & A4 & A5 & A6).
    destruct (text_fields _ _ (proj2 Ht i)) as (_ & T2 & Tk & Tv & _ & _ & _ & _ & T3 & T4 & T5 & Tt & _).
    unfold node_faithful, hanging. rewrite T2, T3, T4, T5, Tk, Tv, Tt. repeat (split; [assumption|]).
    unfold hanging in A6. rewrite !Forall_app in *. split; [|tauto]. destruct (Hc i) as [k Hk]. rewrite Hk.
    destruct (le_lt_dec (length h0) k); [rewrite Hd by auto; constructor|].
    destruct (Nat.eq_dec k 0); [rewrite Hd by auto; constructor|].
    destruct (W3 k ltac:(lia)) as (_ & _ & _ & _ & _ & A7). unfold hanging in A7. rewrite !Forall_app in A7. tauto.
Qed.

Section Parse.
  Context (inp : text) (loc : locale) (rk : reporter_kind) (src : option text).
  Local Notation mk := (MkCtx inp loc rk src).

  Lemma analysed_comments st lc : analyze inp = AOk st lc -> forall k, k = 0 \/ length (a_heap st) <= k -> n_comments (hget (a_heap st) k) = None.
  Proof.
    intros Ha k Hk. destruct (final_reach _ _ _ Ha) as (st0 & Hr & _ & Eh & _). rewrite Eh in *. destruct Hk as [->|Hk].
    - pose proof (reach_document _ _ Hr) as H. now rewrite (stat_comments _ _ H).
    - unfold hget. now rewrite nth_overflow.
  Qed.

  Lemma wf_analysed st lc : analyze inp = AOk st lc -> WF (mk (a_heap st) (a_meta st) lc).
  Proof.
    intro Ha. destruct (final_reach _ _ _ Ha) as (st0 & Hr & Hix & -> & -> & _ & _ & Hlc).
    destruct (reach_inv _ _ Hr) as [HI _]. destruct (reach_BInv _ _ Hr) as [B1 B2 B3 _]. destruct (reach_text _ _ Hr) as [_ T2 T3 T4].
    assert (a_line st0 <= lc /\ 0 < lc) as [Hle H0].
    { destruct (Nat.eq_dec (length inp) 0) as [E|E].
      - assert (a_line st0 = 0) by (inversion Hr as [|s s' Hs Hi Hst]; subst; cbn; [reflexivity|lia]).
        destruct inp; [|discriminate]. cbn in Hlc. lia.
      - destruct (reach_line _ _ Hr) as [H|H]; [lia|].
        destruct (N.eqb _ _); [lia|]. destruct inp; [contradiction|lia]. }
    pose proof (Forall_tl_get _ _ T2) as F. pose proof (Forall_tl_get _ _ B1) as B.
    constructor; cbn [c_heap c_meta c_input c_line_count] in *; try assumption.
    - apply shape_of; apply HI.
    - intros i Hi. apply faithful_node_ok with inp; [now apply F|]. eapply node_bound_le; [exact Hle|]. now apply B.
    - assert (Forall (leaf_faithful inp) (flush (a_meta st0) (a_comments st0))) as G1 by (now apply leaf_flush).
      assert (Forall (fun l => l_line l < a_line st0) (flush (a_meta st0) (a_comments st0))) as G2 by (now apply below_flush).
      rewrite Forall_forall in *. intros l Hl. apply faithful_ok with inp; [auto|]. specialize (G2 l Hl). cbn in G2. lia.
  Qed.

  Lemma multiline_faithful st e op k : begins_line inp (a_index st) -> a_index st <= e -> line_end inp e ->
    tok_ok inp (a_index st) e (TMultiline op k) -> Forall (leaf_faithful inp) (olist (a_comments st)) ->
    node_faithful inp (multiline_node inp st e op k).
  Proof.
    intros Hb Hie Hle ([Hop Hops] & Hw & [Hv Hcl]) Hc. apply line_end_ends in Hle as [Hlen Hen].
    unfold node_faithful, multiline_node, hanging. cbn. unfold span_in in *. conjs.
    - exists (a_index st), e. repeat (split; [first [assumption|reflexivity]|]). split; [intros nm r Hin; in_cases Hin; cbn; lia|ranges_apart].
    - intros nm r Hin Ht. in_cases Hin; try discriminate. now apply clean_trimmed.
    - rewrite app_nil_r. assumption.
  Qed.

  (** the context of an error in the analysis; [st0] is the state it happened in *)
  Lemma wf_stopped e st lc : analyze inp = AErr e st lc ->
    exists st0, reach inp st0 /\ a_index st0 < length inp /\ stopped inp st0 e st lc /\ WF (mk (a_heap st) (a_meta st) lc).
  Proof.
    intro Ha. pose proof (analyze_reach inp) as G. rewrite Ha in G. destruct G as (st0 & Hr & Hix & Hst).
    destruct (reach_inv _ _ Hr) as [HI _]. pose proof (step_inv inp st0 HI ltac:(lia)) as HD. rewrite Hst in HD. destruct HD as [HD1 HD2].
    pose proof (step_stopped inp st0 e st lc HI Hix Hst) as Hs. exists st0. split; [assumption|]. split; [assumption|]. split; [assumption|].
    destruct (reach_BInv _ _ Hr) as [B1 B2 B3 B4]. destruct (reach_text _ _ Hr) as [T1 T2 T3 T4]. specialize (T1 ltac:(lia)).
    assert (forall index line i ls, tokenize_error inp (S (length inp)) index line true = Some (i :: ls, lc) -> a_line st0 <= line ->
      a_line st0 < lc /\ 0 < lc /\ Forall (leaf_ok lc) (a_meta st0 ++ i :: ls)) as K.
    { intros index line i ls Ht Hl. apply tokenize_spec in Ht as (K1 & K2 & K3 & _). cbn [length] in K1. split; [lia|]. split; [lia|].
      apply Forall_app. split.
      - rewrite Forall_forall in *. intros l Hin. apply faithful_ok with inp; [auto|]. specialize (B2 l Hin). cbn in B2. lia.
      - rewrite Forall_forall in *. intros l Hin. destruct (K2 l Hin) as (s & Hs' & _). split; [|rewrite Hs'; discriminate].
        apply In_nth_error in Hin as [j Hj]. pose proof (K3 j l Hj). assert (j < length (i :: ls)) by (apply nth_error_Some; congruence).
        cbn [length] in *. lia. }
    pose proof (Forall_tl_get _ _ T2) as F. pose proof (Forall_tl_get _ _ B1) as B.
    destruct Hs as [i ls H1 H2 H3 H4|op k j i ls H1 H2 H3 H4 H5 H6].
    - destruct (K _ _ _ _ H1 ltac:(lia)) as (L1 & L2 & L3). rewrite H2, H3. rewrite H2 in HD1, HD2. constructor; cbn [c_heap c_meta c_input c_line_count] in *; try assumption.
      + now apply shape_of.
      + intros x Hx. apply faithful_node_ok with inp; [now apply F|]. eapply node_bound_le; [|now apply B]. lia.
    - destruct (K _ _ _ _ H3 ltac:(lia)) as (L1 & L2 & L3).
      destruct (scan_ok inp (a_index st0) _ j ltac:(lia) H1) as (Hie & Hle & Htok).
      assert (a_heap st0 <> []) as Hne.
      { pose proof (s_len _ (i_s _ _ _ _ _ HI)). destruct (a_heap st0); [cbn in *; lia|discriminate]. }
      assert (a_lsec st0 < length (a_heap st0)) as Hsec by apply HI.
      assert (node_faithful inp (multiline_node inp st0 j op k)) as Hnf by (now apply multiline_faithful).
      assert (Forall (fun n => node_faithful inp n /\ node_ok lc n) (tl (a_heap st))) as HF.
      { rewrite H4. apply app_upd_tl_Forall; auto.
        - rewrite Forall_forall in *. intros n Hn. split; [auto|]. apply faithful_node_ok with inp; [auto|]. eapply node_bound_le; [|auto]. lia.
        - split; [assumption|]. split; [cbn; lia|]. split; [apply nested_range with inp; apply Hnf|].
          destruct Hnf as (_ & _ & _ & _ & _ & Hh). unfold hanging in *. cbn in *. rewrite app_nil_r in *.
          change (Forall (leaf_ok lc) (olist (a_comments st0))). change (Forall (leaf_faithful inp) (olist (a_comments st0))) in Hh.
          rewrite Forall_forall in *. intros l Hl. apply faithful_ok with inp; [auto|]. specialize (B3 l Hl). cbn in B3. lia. }
      rewrite H5. constructor; cbn [c_heap c_meta c_input c_line_count] in *; try assumption.
      + now apply shape_of.
      + intros x Hx. now apply (Forall_tl_get _ _ HF).
      + intros x Hx. now apply (Forall_tl_get _ _ HF).
  Qed.

  Lemma stopped_leaf st0 e st lc i ls : stopped inp st0 e st lc -> a_meta st = a_meta st0 ++ i :: ls -> In i (a_meta st).
  Proof. intros _ ->. apply in_or_app. right. now left. Qed.

  (** errors of the analysis are reported *)
  Lemma analysis_prints e st lc : analyze inp = AErr e st lc -> prints (mk (a_heap st) (a_meta st) lc) (parse_error (mk (a_heap st) (a_meta st) lc) e).
  Proof.
    intro Ha. destruct (wf_stopped e st lc Ha) as (st0 & Hr & Hix & Hs & Hwf). set (c := mk (a_heap st) (a_meta st) lc) in *.
    destruct (reach_inv _ _ Hr) as [HI _].
    destruct Hs as [i ls H1 H2 H3 H4|op k j i ls H1 H2 H3 H4 H5 H6].
    - assert (leaf_ok lc i) as Hi.
      { pose proof (wf_meta _ Hwf) as HF. cbn in HF. rewrite H3, Forall_app in HF. destruct HF as [_ HF]. now inversion HF. }
      destruct H4 as [->|[->|[->|[->| ->]]]]; cbn [parse_error].
      + now apply prints_invalid_line.
      + now apply prints_leaf_error.
      + now apply prints_leaf_error.
      + now apply prints_leaf_error.
      + apply prints_layer_skip; [assumption|assumption|]. cbn. rewrite H2. apply HI.
    - rewrite H6. cbn [parse_error].
      assert (a_lsec st0 < length (a_heap st0)) as Hsec by apply HI. pose proof (s_len _ (i_s _ _ _ _ _ HI)) as Hlen.
      assert (hget (a_heap st) (length (a_heap st0)) = multiline_node inp st0 j op k) as Hg by (rewrite H4; now apply app_upd_new).
      apply (prints_unterminated c Hwf) with (k := sub inp k); cbn [c c_heap].
      + rewrite H4, app_upd_length. lia.
      + now rewrite Hg.
      + now rewrite Hg.
  Qed.

  (** errors of the resolution are reported, but for one case *)
  Lemma resolution_prints h0 cs cn meta lc x h : Analysed h0 cs cn -> copy_error h0 x -> same_text h0 h ->
    WF (mk h meta lc) ->
    (exists e prev, x = PCyclic e prev /\ In e prev /\ chain true h0 prev e /\
       n_template (hget h0 e) = None /\ n_template (hget h0 (last prev 0)) = None /\
       parse_error (mk h meta lc) x = Raise UnboundLocalError) \/
    prints (mk h meta lc) (parse_error (mk h meta lc) x).
  Proof.
    intros HA Hx [Hl Ht] Hwf. set (c := mk h meta lc) in *.
    assert (forall i, n_template (hget h i) = n_template (hget h0 i)) as Htpl by (intro i; apply text_fields, Ht).
    assert (forall sec i k, copies sec h0 i k -> 0 < i < length (c_heap c) /\ n_template (hget (c_heap c) i) = Some k) as Hcp.
    { intros sec i k (H1 & H2 & H3). change (c_heap c) with h. rewrite Htpl, Hl. split; [|assumption]. split; [|assumption]. destruct i; [|lia].
      pose proof (s_doc _ (an_s _ _ _ HA)) as Hd. apply kind_cls in H2. rewrite Hd in H2. destruct sec; discriminate. }
    assert (forall sec k i, candidate sec h0 k i -> 0 < i < length (c_heap c)) as Hcd.
    { intros sec k i (H1 & H2 & H3). change (c_heap c) with h. rewrite Hl. split; [|assumption]. destruct i; [|lia].
      pose proof (s_doc _ (an_s _ _ _ HA)) as Hd. apply kind_cls in H2. rewrite Hd in H2. destruct sec; discriminate. }
    assert (forall sec i j, depends sec h0 i j -> 0 < i < length (c_heap c)) as Hdp.
    { intros sec i j [(k & H1 & _)|(_ & Hs & _)]; [now apply Hcp in H1|]. change (c_heap c) with h. rewrite Hl.
      destruct (Nat.lt_ge_cases i (length h0)) as [H|H]; [|unfold hget in Hs; rewrite nth_overflow in Hs by lia; discriminate Hs].
      split; [|assumption]. destruct i; [|lia]. pose proof (s_doc _ (an_s _ _ _ HA)) as Hd. apply (kind_cls true) in Hs. rewrite Hd in Hs. discriminate. }
    destruct Hx as [cp f e (sec & k & H1 & H2 & H3 & H4)|cp (k & Hk & _)|cp (k & Hk & _)|sec e prev He Hc|x (e & t & ty & H1 & H2 & H3 & H4 & _)|x (e & t & ty & H1 & H2 & H3 & H4 & _)];
      cbn [parse_error].
    - right. destruct (Hcp _ _ _ H1) as [A1 A2]. eapply prints_two_templates; eauto.
    - right. destruct (Hcp _ _ _ Hk) as [A1 A2]. apply prints_node_error; [assumption|assumption|]. intro l.
      rewrite (tpl_ok c _ _ A2). eexists; reflexivity.
    - right. destruct (Hcp _ _ _ Hk) as [A1 A2]. apply prints_node_error; [assumption|assumption|]. intro l.
      rewrite (tpl_ok c _ _ A2). eexists; reflexivity.
    - assert (forall y, In y prev -> 0 < y < length (c_heap c)) as Hp.
      { clear He. revert Hc. induction prev as [|y prev IH]; [intros _ y []|]. intros [Hd Hc] z [->|Hz]; [eapply Hdp; eassumption|auto]. }
      destruct (prints_cyclic c Hwf e prev He Hp) as [(A1 & A2 & A3)|[A1 A2]]; [|now right].
      left. exists e, prev. change (c_heap c) with h in A1, A2; rewrite Htpl in A1, A2. split; [reflexivity|]. split; [assumption|]. split; [|auto].
      destruct sec; [assumption|exfalso].
      assert (forall l x, chain false h0 l x -> In e l -> exists j, depends false h0 e j) as G.
      { induction l as [|y l IH]; intros y' Hl' Hin; [destruct Hin|]. destruct Hl' as [Hd Hl']. destruct Hin as [->|Hin]; [eauto|exact (IH _ Hl' Hin)]. }
      destruct (G _ _ Hc He) as (j & [(k & (_ & _ & H) & _)|[? _]]); [congruence|discriminate].
    - right. apply prints_node_error; [assumption| |intro; eexists; reflexivity]. change (c_heap c) with h. rewrite Hl.
      assert (x < length h0) as Hlt.
      { destruct (Nat.lt_ge_cases x (length h0)) as [?|H]; [assumption|]. unfold hget in H3. rewrite nth_overflow in H3 by lia. discriminate. }
      split; [|assumption]. destruct x; [|lia]. pose proof (s_docp _ (an_s _ _ _ HA)). congruence.
    - right. apply prints_node_error; [assumption| |intro; eexists; reflexivity]. change (c_heap c) with h. rewrite Hl.
      assert (x < length h0) as Hlt.
      { destruct (Nat.lt_ge_cases x (length h0)) as [?|H]; [assumption|]. unfold hget in H3. rewrite nth_overflow in H3 by lia. discriminate. }
      split; [|assumption]. destruct x; [|lia]. pose proof (s_docp _ (an_s _ _ _ HA)). congruence.
  Qed.
End Parse.
