(** AnalyzerFinal: what the end of the analysis knows. *)
From Coq Require Import Permutation.
From Verif Require Import Base Types Scan Analyzer TokenStep ScanProofs ScanFacts StepProofs HeapFacts AnalyzerInv
  AnalyzerLoop StepChange SpecText AnalyzerText AnalyzerTiles AnalyzerLines Context SpecTree AnalyzerTree AnalyzerBlocks.

Lemma slice_last inp i : i < length inp -> last inp 0%N = nl -> In nl (slice inp i (length inp)).
Proof.
  intros Hi Hl. unfold slice. rewrite firstn_all2 by (rewrite skipn_length; lia).
  rewrite <- (firstn_skipn i inp) in Hl.
  assert (skipn i inp <> []) as Hne.
  { intro E. apply (f_equal (@length _)) in E. rewrite skipn_length in E. cbn in E. lia. }
  rewrite (app_removelast_last 0%N Hne) in Hl |- *. rewrite app_assoc, last_last in Hl. rewrite Hl.
  apply in_or_app. right. now left.
Qed.

Lemma reach_last inp st : reach inp st -> Forall (single_line inp) (own_lines (a_heap st)) ->
  length inp < a_index st -> last inp 0%N <> nl.
Proof.
  intros Hr. destruct Hr as [|st st' Hr Hlt Hs]; [cbn; lia|]. intros Hone Hix' Hl.
  destruct (reach_inv _ _ Hr) as [HI _].
  destruct (step_change inp st st' HI ltac:(lia) Hs) as (t & e & Hsc & Hch).
  destruct (scan_ok inp (a_index st) _ _ ltac:(lia) Hsc) as (Hie & Hle & Htok).
  pose proof (scan_single inp _ _ _ Hsc) as Hsing.
  assert (a_heap st <> []) as Hne.
  { pose proof (s_len _ (i_s _ _ _ _ _ HI)). destruct (a_heap st); [cbn in *; lia|discriminate]. }
  pose proof (proj1 (line_end_ends _ _) Hle) as [Hlen Hen].
  assert (forall i e', i < length inp -> e' <= length inp -> a_index st' = S e' -> single_line inp (i, e') -> False) as Hfin.
  { intros i e' Hi He' H H1. assert (e' = length inp) as -> by lia. apply H1. unfold at_range. cbn [fst snd].
    now apply slice_last. }
  destruct Hch as [n p g e' Hcr Hp Hg Hcore Hm Hc Hix Hee|c lf Hic Hlce Hh Hm Hc Hix Hli|op v -> Hh Hm Hc Hix Hli|q -> Hh Hm Hc Hix Hli].
  - assert (own_lines (a_heap st') = own_lines (a_heap st) ++ [(a_index st, e)]) as Ho.
    { rewrite !own_lines_over, <- (created_range _ _ _ _ _ _ _ _ Hcr).
      rewrite (over_core _ own_ext _ _ Hcore). apply (over_app_upd _ own_ext); auto. }
    rewrite Ho in Hone. apply Forall_app in Hone as [_ H1]. inversion_clear H1.
    destruct (created_tail _ _ _ _ _ _ _ _ Hcr Hle Htok) as (C1 & _ & _ & C4).
    inversion Hcr; subst; try (apply (Hfin (a_index st) e'); auto; fail).
    match goal with H : find_closing _ _ _ _ = _ |- _ => rename H into HF end.
    match goal with H : ml_part _ _ _ _ = _ |- _ => rename H into HM end.
    destruct (closing_bounds _ _ _ _ _ _ _ _ Hlen HF) as (B1 & B2 & B3 & B4 & B5).
    destruct (ml_part_spec _ _ _ _ _ _ _ HM B1 B4 B5 Hle) as (-> & _).
    apply line_end_ends in B3 as [B3 B3'].
    apply (find_closing_ok inp) in HF; [|split; [reflexivity|assumption]]. destruct HF as (_ & _ & HF).
    apply (closing_line_ok inp) in HF; [|split; [reflexivity|lia]].
    destruct HF as (K1 & K2 & K3 & K4 & K5 & K6 & K7 & K8 & K9).
    assert (0 < length (sub inp op)) as Hop.
    { destruct Htok as ([Hs1 Hs2] & _). rewrite Hs2, repeat_length. unfold width, span_in in *. lia. }
    apply (Hfin (S stop) e'); auto; [lia|].
    rewrite Forall_forall in C4. apply (C4 (end_leaf line3 (S stop) e' o2 k2)). cbn.
    apply in_or_app. right. now left.
  - apply (Hfin (a_index st) e); auto. destruct Hic; exact Hsing.
  - apply (Hfin (a_index st) e); auto.
  - apply (Hfin (a_index st) e); auto.
Qed.

Section Final.
  Context (inp : text) (st : ast) (lc : nat) (Ha : analyze inp = AOk st lc).

  Lemma final_reach : exists st0, reach inp st0 /\ length inp <= a_index st0 /\
        a_heap st = a_heap st0 /\ a_meta st = flush (a_meta st0) (a_comments st0) /\
        a_cs st = a_cs st0 /\ a_cn st = a_cn st0 /\
        lc = (if N.eqb (last inp 0%N) nl then S (a_line st0) else match inp with [] => 1 | _ => a_line st0 end).
  Proof.
    pose proof (analyze_reach inp) as H. rewrite Ha in H. destruct H as (st0 & H1 & H2 & -> & H4).
    exists st0. repeat split; auto.
  Qed.

  Lemma final_faithful : Forall (node_faithful inp) (tl (a_heap st)) /\ Forall (leaf_faithful inp) (a_meta st).
  Proof.
    destruct final_reach as (st0 & Hr & _ & -> & -> & _). destruct (reach_text _ _ Hr) as [T1 T2 T3 T4].
    split; [assumption|]. now apply leaf_flush.
  Qed.

  Lemma final_tiles : exists l blanks j,
    tiles inp 0 l j /\ length inp <= j /\ Forall (blank inp) blanks /\
    Permutation l (heap_lines (a_heap st) ++ map leaf_line (a_meta st) ++ blanks) /\
    ascending 0 (heap_lines (a_heap st)) j /\ ascending 0 (map leaf_line (a_meta st)) j.
  Proof.
    destruct final_reach as (st0 & Hr & Hlen & -> & -> & _).
    destruct (reach_order _ _ Hr) as [(mid & O1 & O2) O3 (l & bl & O4 & O5 & O6)].
    exists l, bl, (a_index st0). split; [assumption|]. split; [assumption|]. split; [assumption|].
    rewrite flush_eq. split; [|split; [|assumption]].
    - rewrite map_app, <- !app_assoc. exact O6.
    - eapply ascending_weaken; [| |exact O1]; [lia|]. now apply ascending_le in O2.
  Qed.

  Lemma final_lines : Forall (single_line inp) (own_lines (a_heap st)) ->
    Forall (fun '(n, s) => n = line_feeds_before inp (fst s)) (heap_nums (a_heap st)) /\
    Forall (fun m => l_line m = line_feeds_before inp (fst (leaf_line m))) (a_meta st) /\
    lc = S (line_feeds_before inp (length inp)).
  Proof.
    destruct final_reach as (st0 & Hr & Hlen & Eh & Em & _ & _ & Hlc). rewrite Eh, Em. intro Hone.
    destruct (reach_lines _ _ Hr Hone) as (L1 & L2 & L3 & L4). split; [|split].
    - eapply Forall_impl; [|exact L2]. intros [n s]. unfold num_ok. auto.
    - rewrite flush_eq. apply Forall_app. split.
      + rewrite Forall_map in L3. eapply Forall_impl; [|exact L3]. auto.
      + rewrite Forall_map in L4. eapply Forall_impl; [|exact L4]. auto.
    - pose proof (reach_last _ _ Hr Hone) as Hlast. unfold lines_before in L1.
      assert (line_feeds_before inp (a_index st0) = line_feeds_before inp (length inp)) as E.
      { unfold line_feeds_before. now rewrite !firstn_all2 by lia. }
      rewrite E in L1. subst lc. destruct (N.eqb_spec (last inp 0%N) nl) as [Hl|Hl].
      + rewrite L1. destruct (Nat.eq_dec (a_index st0) (length inp)) as [->|]; [lia|].
        exfalso. apply Hlast; [lia|assumption].
      + destruct inp as [|c inp'] eqn:Einp; [reflexivity|]. rewrite <- Einp in *. rewrite L1.
        destruct (Nat.eq_dec (a_index st0) (length inp)) as [Heq|].
        2:{ destruct (reach_inv _ _ Hr) as [_ Hb]. lia. }
        exfalso. apply Hl. destruct (reach_text _ _ Hr) as [T1 _ _ _]. specialize (T1 ltac:(lia)). rewrite Heq in T1.
        destruct T1 as [T1|T1]; [apply length_zero_iff_nil in T1; congruence|].
        rewrite Einp in T1 |- *. clear - T1.
        assert (c :: inp' <> []) as Hn by discriminate.
        pose proof (app_removelast_last 0%N Hn) as E. set (d := last (c :: inp') 0%N) in *. rewrite E in T1.
        rewrite app_length in T1. cbn [length] in T1. rewrite Nat.add_sub in T1.
        rewrite nth_error_app2, Nat.sub_diag in T1 by lia. cbn [nth_error] in T1. congruence.
  Qed.
End Final.

(** a failing step from a reachable state is the failure of the whole analysis *)
Lemma reach_loop inp st : reach inp st -> exists k, k <= a_index st /\
  forall f, loop inp (k + f) init_ast = loop inp f st.
Proof.
  induction 1 as [|st st' Hr (k & Hk & IH) Hlt Hs]; [exists 0; split; [lia|reflexivity]|].
  destruct (reach_inv _ _ Hr) as [HI _].
  pose proof (step_inv inp st HI ltac:(lia)) as H. rewrite Hs in H. destruct H as [_ H].
  exists (S k). split; [lia|]. intro f. replace (S k + f) with (k + S f) by lia. rewrite IH. cbn [loop].
  apply Nat.ltb_lt in Hlt. now rewrite Hlt, Hs.
Qed.
Lemma reach_fails inp st e st' lc : reach inp st -> a_index st < length inp -> step inp st = SErr e st' lc ->
  analyze inp = AErr e st' lc.
Proof.
  intros Hr Hlt Hs. destruct (reach_loop _ _ Hr) as (k & Hk & Hl).
  unfold analyze. destruct inp as [|c inp'] eqn:E; [cbn in Hlt; lia|]. rewrite <- E in *.
  specialize (Hl (length inp - k)). replace (k + (length inp - k)) with (length inp) in Hl by lia. rewrite Hl.
  destruct (length inp - k) as [|f] eqn:Ef; [lia|]. cbn [loop]. apply Nat.ltb_lt in Hlt. now rewrite Hlt, Hs.
Qed.
Lemma reach_next inp st st' : reach inp st -> a_index st < length inp -> step inp st = SOk st' -> reach inp st'.
Proof. intros. eapply reach_step; eauto. Qed.

(** * The acceptance theorems about the whole analysis *)

Theorem item_analysis inp st l op v e : reach inp st -> a_index st < length inp ->
  scan (a_index st) (skipn (a_index st) inp) = Some (TItem op v, e) ->
  latest (fun n => is_element n \/ is_container n) (a_heap st) l ->
  if accepts_items (hget (a_heap st) l)
  then exists st', reach inp st' /\ length (a_heap st') = S (length (a_heap st)) /\
         n_type (hget (a_heap st') (length (a_heap st))) = LIST_ITEM /\
         n_parent (hget (a_heap st') (length (a_heap st))) = Some l /\
         n_value (hget (a_heap st') (length (a_heap st))) = option_map (at_range inp) v /\
         n_type (hget (a_heap st') l) = LIST /\
         opt_list (n_items (hget (a_heap st') l)) = opt_list (n_items (hget (a_heap st) l)) ++ [length (a_heap st)] /\
         (forall j, j < length (a_heap st) -> j <> l -> hget (a_heap st') j = hget (a_heap st) j)
  else exists i st' lc, analyze inp = AErr (PMissingListForItem i) st' lc /\
         l_line i = a_line st /\ fst (leaf_line i) = a_index st.
Proof.
  intros Hr Hlt Hsc Hl. pose proof (item_step inp st l op v e Hr Hlt Hsc Hl) as H.
  destruct (accepts_items _).
  - destruct H as (st' & H1 & H). exists st'. split; [eapply reach_next; eauto|exact H].
  - destruct H as (i & st' & lc & H1 & H). exists i, st', lc. split; [eapply reach_fails; eauto|exact H].
Qed.

Theorem entry_analysis inp st l k op v e : reach inp st -> a_index st < length inp ->
  scan (a_index st) (skipn (a_index st) inp) = Some (TEntry k op v, e) ->
  latest (fun n => is_element n \/ is_container n) (a_heap st) l ->
  if accepts_entries (hget (a_heap st) l)
  then exists st', reach inp st' /\ length (a_heap st') = S (length (a_heap st)) /\
         n_type (hget (a_heap st') (length (a_heap st))) = FIELDSET_ENTRY /\
         n_parent (hget (a_heap st') (length (a_heap st))) = Some l /\
         n_value (hget (a_heap st') (length (a_heap st))) = option_map (at_range inp) v /\
         n_type (hget (a_heap st') l) = FIELDSET /\
         opt_list (n_entries (hget (a_heap st') l)) = opt_list (n_entries (hget (a_heap st) l)) ++ [length (a_heap st)] /\
         (forall j, j < length (a_heap st) -> j <> l -> hget (a_heap st') j = hget (a_heap st) j)
  else exists i st' lc, analyze inp = AErr (PMissingFieldsetForEntry i) st' lc /\
         l_line i = a_line st /\ fst (leaf_line i) = a_index st.
Proof.
  intros Hr Hlt Hsc Hl. pose proof (entry_step inp st l k op v e Hr Hlt Hsc Hl) as H.
  destruct (accepts_entries _).
  - destruct H as (st' & H1 & H). exists st'. split; [eapply reach_next; eauto|exact H].
  - destruct H as (i & st' & lc & H1 & H). exists i, st', lc. split; [eapply reach_fails; eauto|exact H].
Qed.

Theorem continuation_analysis inp st (sp : bool) op v e t : reach inp st -> a_index st < length inp ->
  scan (a_index st) (skipn (a_index st) inp) = Some (t, e) ->
  t = (if sp then TSpaced op v else TDirect op v) ->
  let c := length (a_heap st) - 1 in
  if accepts_continuation (hget (a_heap st) c)
  then exists st' lf, reach inp st' /\ length (a_heap st') = length (a_heap st) /\
         l_type lf = Some CONTINUATION /\ l_spaced lf = sp /\ l_text lf = option_map (at_range inp) v /\
         n_conts (hget (a_heap st') c) =
           Some (match n_conts (hget (a_heap st) c) with Some l => l | None => [] end ++ [lf]) /\
         n_key (hget (a_heap st') c) = n_key (hget (a_heap st) c) /\
         n_value (hget (a_heap st') c) = n_value (hget (a_heap st) c) /\
         (forall j, j <> c -> hget (a_heap st') j = hget (a_heap st) j)
  else exists i st' lc, analyze inp = AErr (PMissingElementForContinuation i) st' lc /\
         l_line i = a_line st /\ fst (leaf_line i) = a_index st.
Proof.
  intros Hr Hlt Hsc Ht c. pose proof (continuation_step inp st sp op v e t Hr Hlt Hsc Ht) as H. cbv zeta in H. fold c in H.
  destruct (accepts_continuation _).
  - destruct H as (st' & lf & H1 & H). exists st', lf. split; [eapply reach_next; eauto|exact H].
  - destruct H as (i & st' & lc & H1 & H). exists i, st', lc. split; [eapply reach_fails; eauto|exact H].
Qed.

Theorem section_analysis inp st s op k t e : reach inp st -> a_index st < length inp ->
  scan (a_index st) (skipn (a_index st) inp) = Some (TSection op k t, e) ->
  latest is_container (a_heap st) s ->
  let n := snd op - fst op in
  if Nat.leb n (depth (hget (a_heap st) s) + 1)
  then exists st' p, reach inp st' /\
         length (a_heap st') = S (length (a_heap st)) /\
         latest (fun x => is_container x /\ depth x = n - 1) (a_heap st) p /\
         let x := hget (a_heap st') (length (a_heap st)) in
         n_type x = SECTION /\ depth x = n /\ n_parent x = Some p /\
         n_key x = Some (at_range inp (match k with Plain a => a | Escaped _ a _ => a end)) /\
         n_elements (hget (a_heap st') p) = n_elements (hget (a_heap st) p) ++ [length (a_heap st)]
  else exists i st' lc, analyze inp = AErr (PLayerSkip i s) st' lc /\
         l_line i = a_line st /\ fst (leaf_line i) = a_index st.
Proof.
  intros Hr Hlt Hsc Hl n. pose proof (section_step inp st s op k t e Hr Hlt Hsc Hl) as H. cbv zeta in H. fold n in H.
  destruct (Nat.leb _ _).
  - destruct H as (st' & p & H1 & H). exists st', p. split; [eapply reach_next; eauto|exact H].
  - destruct H as (i & st' & lc & H1 & H). exists i, st', lc. split; [eapply reach_fails; eauto|exact H].
Qed.

Theorem multiline_analysis inp st op k e : reach inp st -> a_index st < length inp ->
  scan (a_index st) (skipn (a_index st) inp) = Some (TMultiline op k, e) ->
  (forall s, first_closing inp (at_range inp op) (at_range inp k) e s ->
     exists st', reach inp st' /\ length (a_heap st') = S (length (a_heap st)) /\
       let n := hget (a_heap st') (length (a_heap st)) in
       n_type n = MULTILINE_FIELD_BEGIN /\ line_range (n_ranges n) = (a_index st, e) /\
       n_key n = Some (at_range inp k) /\
       own_value inp n = between inp e s) /\
  ((forall s, e <= s -> ~ closes inp (at_range inp op) (at_range inp k) s) ->
     exists st' lc, analyze inp = AErr (PUnterminatedMultiline (length (a_heap st))) st' lc /\
       let n := hget (a_heap st') (length (a_heap st)) in
       n_line n = a_line st /\ line_range (n_ranges n) = (a_index st, e)).
Proof.
  intros Hr Hlt Hsc. destruct (multiline_step inp st op k e Hr Hlt Hsc) as [H1 H2]. split.
  - intros s Hs. destruct (H1 s Hs) as (st' & G1 & G). exists st'. split; [eapply reach_next; eauto|exact G].
  - intros Hs. destruct (H2 Hs) as (st' & lc & G1 & G). exists st', lc. split; [eapply reach_fails; eauto|exact G].
Qed.

(** an error of the analysis is one of a reachable state *)
Theorem analysis_error inp e st lc : analyze inp = AErr e st lc ->
  exists st0, reach inp st0 /\ a_index st0 < length inp /\
    match scan (a_index st0) (skipn (a_index st0) inp) with
    | None => exists i, e = PInvalidLine i
    | Some (TItem _ _, _) => exists i, e = PMissingListForItem i
    | Some (TEntry _ _ _, _) => exists i, e = PMissingFieldsetForEntry i
    | Some (TDirect _ _, _) | Some (TSpaced _ _, _) => exists i, e = PMissingElementForContinuation i
    | Some (TSection _ _ _, _) => exists i s, e = PLayerSkip i s
    | Some (TMultiline _ _, _) => exists i, e = PUnterminatedMultiline i
    | _ => False
    end.
Proof.
  intro H. pose proof (analyze_reach inp) as Hr. rewrite H in Hr. destruct Hr as (st0 & Hr & Hlt & Hs).
  exists st0. split; [assumption|]. split; [assumption|]. destruct (reach_inv _ _ Hr) as [HI _].
  rewrite step_tstep in Hs by lia. unfold tstep in Hs.
  assert (forall st1 i l mk, fail_at inp st1 i l mk = SErr e st lc -> exists x, e = mk x) as Hf.
  { intros st1 i l mk. destruct (fail_at_first inp st1 mk i l) as (x & s' & lc' & -> & _).
    intros [= <- _ _]. eauto. }
  destruct (scan _ _) as [[t e0]|] eqn:Hsc; [|now apply Hf in Hs].
  destruct t as [p|op v|op v|op v|op v|op k|op k tp|k op v|k op v|k op tp]; cbn [tstep_tok] in Hs; try discriminate.
  - destruct (a_lce st0); [discriminate|]. now apply Hf in Hs.
  - destruct (a_lce st0); [discriminate|]. now apply Hf in Hs.
  - destruct (a_lnse st0) as [l|]; [destruct (takes_items _); [discriminate|]|]; now apply Hf in Hs.
  - destruct (find_closing _ _ _ _) as [[? [[? ?] ?]]|].
    + destruct (if Nat.eqb _ _ then _ else _) as [[[? ?] ?]|]; discriminate.
    + apply Hf in Hs as [_ ->]. eauto.
  - destruct (section_parent _ _) as [[|]|]; [|discriminate|apply Hf in Hs as [x ->]; eauto].
    destruct tp as [[? ?]|]; [destruct (mark_deep _ _ _)|]; discriminate.
  - destruct (a_lnse st0) as [l|]; [destruct (takes_entries _); [discriminate|]|]; now apply Hf in Hs.
Qed.

(** * Fields, empty elements and copies *)

Lemma latest_lsec st s : AInv st -> latest is_container (a_heap st) s -> s = a_lsec st /\ s < length (a_heap st).
Proof. intros HI Hs. split; [now apply latest_section|apply Hs]. Qed.

Theorem field_analysis inp st s k op v e : reach inp st -> a_index st < length inp ->
  scan (a_index st) (skipn (a_index st) inp) = Some (TField k op v, e) ->
  latest is_container (a_heap st) s ->
  exists st', reach inp st' /\ length (a_heap st') = S (length (a_heap st)) /\
    let n := hget (a_heap st') (length (a_heap st)) in
    n_type n = match v with Some _ => FIELD | None => EMPTY_ELEMENT end /\
    n_key n = Some (at_range inp (match k with Plain a => a | Escaped _ a _ => a end)) /\
    n_value n = option_map (at_range inp) v /\ n_template n = None /\ n_conts n = None /\
    n_parent n = Some s /\
    n_elements (hget (a_heap st') s) = n_elements (hget (a_heap st) s) ++ [length (a_heap st)].
Proof.
  intros Hr Hlt Hsc Hs. destruct (reach_inv _ _ Hr) as [HI _].
  destruct (latest_lsec _ _ HI Hs) as [-> Hsec].
  assert (step inp st = tstep inp st) as Est by (apply step_tstep; lia).
  unfold tstep in Est. rewrite Hsc in Est. cbn [tstep_tok] in Est.
  eexists. split; [eapply reach_next; eassumption|]. cbn [a_heap].
  match goal with |- context [add_element (_ ++ [?n]) ?p ?i] =>
    change (add_element (a_heap st ++ [n]) p i) with (app_upd (a_heap st) n p (fun n0 => set_elements (n_elements n0 ++ [i]) n0)) end.
  rewrite app_upd_length, app_upd_new, app_upd_at by (auto; intro; reflexivity).
  split; [reflexivity|]. cbv zeta. split; [destruct v; reflexivity|]. split; [destruct k; reflexivity|].
  split; [destruct v; reflexivity|]. repeat split; reflexivity.
Qed.

Theorem copy_analysis inp st s k op t e : reach inp st -> a_index st < length inp ->
  scan (a_index st) (skipn (a_index st) inp) = Some (TCopy k op t, e) ->
  latest is_container (a_heap st) s ->
  exists st', reach inp st' /\ length (a_heap st') = S (length (a_heap st)) /\
    let n := hget (a_heap st') (length (a_heap st)) in
    n_type n = EMPTY_ELEMENT /\
    n_key n = Some (at_range inp (match k with Plain a => a | Escaped _ a _ => a end)) /\
    n_value n = None /\ n_template n = Some (at_range inp t) /\ n_conts n = None /\
    n_parent n = Some s /\
    n_elements (hget (a_heap st') s) = n_elements (hget (a_heap st) s) ++ [length (a_heap st)].
Proof.
  intros Hr Hlt Hsc Hs. destruct (reach_inv _ _ Hr) as [HI _].
  destruct (latest_lsec _ _ HI Hs) as [-> Hsec].
  assert (step inp st = tstep inp st) as Est by (apply step_tstep; lia).
  unfold tstep in Est. rewrite Hsc in Est. cbn [tstep_tok] in Est.
  eexists. split; [eapply reach_next; eassumption|]. cbn [a_heap].
  match goal with |- context [add_element (_ ++ [?n]) ?p ?i] =>
    change (add_element (a_heap st ++ [n]) p i) with (app_upd (a_heap st) n p (fun n0 => set_elements (n_elements n0 ++ [i]) n0)) end.
  rewrite app_upd_length, app_upd_new, app_upd_at by (auto; intro; reflexivity).
  split; [reflexivity|]. cbv zeta. split; [reflexivity|]. split; [destruct k; reflexivity|].
  repeat split; reflexivity.
Qed.

(** every instruction but a list item has a key *)
Lemma reach_keyed inp st : reach inp st -> Forall (fun n => ncls n = CItem \/ n_key n <> None) (tl (a_heap st)).
Proof.
  apply reach_forall.
  - intros x y Hc. assert (stat x = stat y) as Hs by (unfold core in Hc; congruence).
    now rewrite (stat_cls _ _ Hs), (stat_key _ _ Hs).
  - intros g x Hg. destruct (Hg x) as (Hs & _). now rewrite (stat_cls _ _ Hs), (stat_key _ _ Hs).
  - intros lf x. pose proof (benign_cont lf x) as Hs. now rewrite (stat_cls _ _ Hs), (stat_key _ _ Hs).
  - intros st0 t e n p e' l' _ _ Hcr _ _. destruct Hcr; cbn; first [right; discriminate|left; reflexivity].
Qed.

(** the state after [k] instructions, to exhibit reachable states *)
Fixpoint run (inp : text) (k : nat) (st : ast) : option ast :=
  match k with
  | O => Some st
  | S k => if Nat.ltb (a_index st) (length inp) then
             match step inp st with SOk st' => run inp k st' | _ => None end
           else None
  end.
Lemma run_reach inp k : forall st st', reach inp st -> run inp k st = Some st' -> reach inp st'.
Proof.
  induction k as [|k IH]; cbn [run]; intros st st' Hr H; [now injection H as <-|].
  destruct (Nat.ltb_spec (a_index st) (length inp)); [|discriminate].
  destruct (step inp st) eqn:Es; try discriminate. eapply IH; [|exact H]. eapply reach_step; eauto.
Qed.
