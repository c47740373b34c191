(** SnippetFault: snippets of the errors a document raises. *)
From Coq Require Import Permutation.
From Verif Require Import Base Regex Grammar Types Messages Scan Analyzer TokenStep ScanProofs ScanFacts StepProofs HeapFacts AnalyzerInv AnalyzerLoop StepChange SpecText AnalyzerText AnalyzerTiles
  AnalyzerLines AnalyzerFinal AnalyzerBounds SpecTree AnalyzerTree Resolver SpecResolve ResolverIndex ResolverFields ResolverSections ResolverFinal ResolverComments ReadLinks
  Reporter Errors Context Elements Session Faults SpecLookup SpecSelect SpecRead SpecApi Reads ReporterFacts ReporterTags ParseErrors ParseContext ParseOutcome SpecErrors ParseTexts PropAnalysisProofs
  LookupDoc LookupProofs LookupAgree CommentLines RegexBounds SelectProofs ApiDoc ApiInv ApiState ApiOps SessionInv SessionRun PropLookupProofs FaultProofs PropErrorsProofs SpecReport SpecSnippet SnippetRows SnippetCover.

(** * Lines of comments *)

Lemma scan_comment inp i op v e : scan i (skipn i inp) = Some (TComment op v, e) -> comment_text (slice inp i e).
Proof.
  remember (skipn i inp) as r0 eqn:Er. symmetry in Er. unfold scan. destruct (after_spaces r0) as [|c r1] eqn:Ea; [discriminate|].
  destruct (N.eqb c nl); [discriminate|]. destruct (N.eqb c c_pipe); [discriminate|]. destruct (N.eqb c c_bslash); [discriminate|].
  destruct (N.eqb_spec c c_gt) as [->|].
  - intros [= <- <- <-]. rewrite <- Ea, eol_spaces, (slice_eol _ _ _ Er). unfold after_spaces in Ea. rewrite <- (take_drop_while hspace r0), Ea.
    exists (takewhile hspace r0), (takewhile not_nl r1). split.
    + unfold line_of. assert (forall a b, forallb hspace a = true -> takewhile not_nl (a ++ b) = a ++ takewhile not_nl b) as K.
      { induction a as [|x a IH]; intros b H; [reflexivity|]. cbn in H. apply andb_true_iff in H as [H1 H2]. cbn.
        assert (not_nl x = true) as -> by (unfold hspace in H1; now apply andb_true_iff in H1). now rewrite IH. }
      rewrite K by apply takewhile_all. reflexivity.
    + unfold blank_text. eapply forallb_impl; [|apply takewhile_all]. intros x Hx. unfold hspace in Hx. now apply andb_true_iff in Hx.
  - destruct (N.eqb c c_dash); [destruct (Nat.eqb _ _); [discriminate|]; destruct (opt_value _ _); discriminate|].
    destruct (N.eqb c c_hash); [destruct (scan_key _ _ _ _ _) as [[k [t0 e0]]|]; discriminate|].
    destruct (scan_key _ _ _ _ _) as [[k [[o v0|o v0|o t0] e0]]|]; discriminate.
Qed.
Lemma reach_remarks inp st : SpecRun.reach inp st -> Forall (fun l => comment_text (at_range inp (leaf_line l))) (olist (a_comments st)).
Proof.
  induction 1 as [|st st' Hr IH Hlt Hs]; [constructor|]. destruct (reach_inv _ _ Hr) as [HI _].
  destruct (step_change inp st st' HI ltac:(lia) Hs) as (t & e & Hsc & Hch).
  destruct Hch as [n p g e' Hcr Hp Hg Hcore Hm Hc Hix Hee|c lf Hic Hlce Hh Hm Hc Hix Hli|op v -> Hh Hm Hc Hix Hli|q -> Hh Hm Hc Hix Hli]; rewrite Hc; try constructor.
  apply Forall_app. split; [assumption|]. constructor; [|constructor]. exact (scan_comment _ _ _ _ _ Hsc).
Qed.

(** * Parse errors *)

Section Faults.
  Context (inp : text) (loc : locale) (rk : reporter_kind) (src : option text).
  Local Notation mk := (MkCtx inp loc rk src).

  Lemma kept_refl h : kept_parts h h. Proof. intro i. auto. Qed.
  Lemma text_refl h : same_text h h. Proof. split; auto. Qed.

  (** a context in which all lines read are indexed, and a part not read follows *)
  Lemma stopped_shows e st lc : analyze inp = AErr e st lc -> single_lines inp (a_heap st) ->
    shows_all (mk (a_heap st) (a_meta st) lc) (stands_or_past lost_line inp).
  Proof.
    intros Ha Hs. pose proof (stopped_tidy _ _ _ _ Ha Hs) as Hti.
    assert (WF (mk (a_heap st) (a_meta st) lc)) as Hwf by (now apply wf_stopped with (loc := loc) (rk := rk) (src := src) in Ha as (st0 & _ & _ & _ & H)).
    pose proof (analyze_reach inp) as G. rewrite Ha in G. destruct G as (st0 & Hr & Hix & Hst). destruct (reach_inv _ _ Hr) as [HI _].
    pose proof (step_inv inp st0 HI ltac:(lia)) as HD. rewrite Hst in HD. destruct HD as [_ HD].
    pose proof (step_stopped inp st0 e st lc HI Hix Hst) as Hsp. clear Hst.
    destruct (reach_text _ _ Hr) as [T1 _ T3 T4]. specialize (T1 ltac:(lia)). rewrite Forall_forall in T3.
    pose proof (reach_remarks _ _ Hr) as HR. rewrite Forall_forall in HR.
    destruct (reach_order _ _ Hr) as [_ _ (l & bl & L1 & L2 & L3)]. rewrite Forall_forall in L2.
    destruct (build_index_ok _ Hwf) as (ix & Eix & _ & B1 & B2). cbn [c_meta] in B2.
    assert (forall s, In s (heap_lines (a_heap st)) -> single_line inp s /\ (covers ix (line_feeds_before inp (fst s)) \/ comment_text (at_range inp s))) as Kh.
    { intros s Hin. destruct (in_heap_lines _ _ Hin) as (i & n & Hi & Hn). destruct (num_single _ _ _ _ _ _ Hs Hti Hi Hn) as [N1 <-]. split; [assumption|]. left. apply B1.
      exact (read_covers (mk (a_heap st) (a_meta st) lc) Hwf (a_heap st) HD (text_refl _) (kept_refl _) i n s Hi Hn). }
    assert (forall m, In m (a_meta st) -> nested inp (l_ranges m) ->
      single_line inp (leaf_line m) /\ (covers ix (line_feeds_before inp (fst (leaf_line m))) \/ comment_text (at_range inp (leaf_line m)))) as Km.
    { intros m Hin Hne. destruct (proj2 Hti m Hin Hne) as [N1 N2]. split; [assumption|]. left. unfold num_ok in N2. cbn in N2. rewrite <- N2. now apply B2. }
    assert (forall tl j, tiles inp 0 tl j -> length inp <= j ->
      (forall s, In s tl -> blank inp s \/ single_line inp s /\ (covers ix (line_feeds_before inp (fst s)) \/ comment_text (at_range inp s))) ->
      forall k, k <= line_feeds_before inp (length inp) -> covers ix k \/ exists b e, the_line inp k b e /\ lost_line (at_range inp (b, e))) as Kt.
    { intros tl j Ht Hj Hl k Hk. destruct (tiled_lines inp tl j _ Ht Hj Hl k Hk) as (b & e' & Hbe & [H|[H|H]]).
      - right. exists b, e'. split; [assumption|now left].
      - left. cbn in H. destruct Hbe as (_ & _ & _ & _ & _ & <-). assumption.
      - right. exists b, e'. split; [assumption|now right]. }
    apply shows_weaken with (fun k x => stands_for lost_line inp k x \/ True /\ x = [] /\ k = S (line_feeds_before inp (length inp))); [unfold stands_or_past; tauto|].
    assert (lines_before inp (S (length inp)) = S (line_feeds_before inp (length inp))) as Eend.
    { unfold lines_before. replace (line_feeds_before inp (S (length inp))) with (line_feeds_before inp (length inp)) by (unfold line_feeds_before; now rewrite !firstn_all2 by lia). lia. }
    destruct Hsp as [i ls H1 H2 H3 H4|op k j i ls H1 H2 H3 H4 H5 H6].
    - (* a line that cannot be read *)
      assert (single_lines inp (a_heap st0)) as Hs0 by (now rewrite <- H2). destruct (reach_tidy _ _ Hr Hs0) as [[_ U2] U3].
      apply tokenize_spec in H1 as (K1 & _ & K3 & _ & K5 & _ & K7). specialize (K5 ltac:(lia)). specialize (K7 ltac:(lia) T1).
      assert (forall m, In m (a_meta st) -> nested inp (l_ranges m)) as Hne.
      { intros m Hin. rewrite H3 in Hin. apply in_app_or in Hin as [Hin|Hin]; [apply (T3 m Hin)|]. rewrite Forall_forall in K7. now apply K7. }
      assert (lc = S (line_feeds_before inp (length inp))) as Elc.
      { destruct (tiles_nums inp _ _ _ (a_line st0) K5) as [_ N]; [|assumption|now symmetry|].
        - eapply Forall_impl; [|exact K7]. intros a [_ Ha']. exact Ha'.
        - rewrite K1, <- N. exact Eend. }
      apply (shows (mk (a_heap st) (a_meta st) lc) Hwf Hs Hti lost_line True); cbn [c_input c_meta c_line_count].
      + intros m Hin. left. auto.
      + intros ix' k' E Hk. assert (ix' = ix) as -> by congruence. apply (Kt (l ++ map leaf_line (i :: ls)) (S (length inp))); [exact (tiles_app _ _ _ _ _ _ L1 K5)|lia| |lia].
        intros s Hin. apply in_app_or in Hin as [Hin|Hin].
        * apply (Permutation_in _ L3) in Hin. apply in_app_or in Hin as [Hin|Hin]; [right; apply Kh; now rewrite H2|].
          apply in_app_or in Hin as [Hin|Hin]; [|apply in_app_or in Hin as [Hin|Hin]; [|left; auto]]; right.
          -- apply in_map_iff in Hin as (m & <- & Hin). assert (In m (a_meta st)) as Hm by (rewrite H3; apply in_or_app; now left). apply Km; auto.
          -- apply in_map_iff in Hin as (m & <- & Hin). split; [|right; now apply HR]. destruct (reach_clines _ _ Hr) as [_ _ C3]. unfold singles in C3. rewrite Forall_forall in C3. now apply C3.
        * apply in_map_iff in Hin as (m & <- & Hin). assert (In m (a_meta st)) as Hm by (rewrite H3; apply in_or_app; now right). right. apply Km; auto.
    - (* a multiline field without end *)
      destruct (scan_ok inp (a_index st0) _ j ltac:(lia) H1) as (Hie & Hle & Htok). pose proof (proj1 (line_end_ends _ _) Hle) as [Hjl Hje].
      assert (single_line inp (a_index st0, j)) as Hsj by exact (scan_single inp _ _ _ H1).
      assert (a_heap st0 <> []) as Hne0 by (pose proof (s_len _ (i_s _ _ _ _ _ HI)); destruct (a_heap st0); [cbn in *; lia|discriminate]).
      assert (heap_lines (a_heap st) = heap_lines (a_heap st0) ++ node_lines (multiline_node inp st0 j op k)) as Ehl.
      { rewrite H4. apply (over_app_upd node_lines node_lines_ext); [assumption|apply registering_element]. }
      change (node_lines (multiline_node inp st0 j op k)) with (map leaf_line (olist (a_comments st0)) ++ [(a_index st0, j)]) in Ehl.
      assert (single_lines inp (a_heap st0)) as Hs0.
      { intros x Hx. assert (a_lsec st0 < length (a_heap st0)) as Hsec by apply HI. specialize (Hs x). rewrite H4 in Hs. rewrite app_upd_length in Hs. specialize (Hs ltac:(lia)).
        unfold app_upd in Hs. destruct (Nat.eq_dec (a_lsec st0) x) as [<-|Hne].
        - rewrite hget_upd_eq in Hs by (rewrite app_length; cbn; lia). unfold hget in Hs. rewrite app_nth1 in Hs by assumption. exact Hs.
        - rewrite hget_upd_neq in Hs by assumption. unfold hget in Hs. rewrite app_nth1 in Hs by lia. exact Hs. }
      destruct (reach_tidy _ _ Hr Hs0) as [[_ U2] U3].
      assert (lines_before inp (S j) = S (a_line st0)) as Ej by (rewrite U3; apply lines_next; [lia|lia|exact Hje|exact Hsj]).
      assert (tiles inp 0 (l ++ [(a_index st0, j)]) (S j)) as Ht1 by (apply (tiles_app _ _ _ (a_index st0)); [assumption|constructor; auto; constructor]).
      assert (forall s, In s (l ++ [(a_index st0, j)]) -> (forall m, In m (a_meta st0) -> In m (a_meta st) /\ nested inp (l_ranges m)) ->
        blank inp s \/ single_line inp s /\ (covers ix (line_feeds_before inp (fst s)) \/ comment_text (at_range inp s))) as Kl.
      { intros s Hin Hmm. apply in_app_or in Hin as [Hin|[<-|[]]].
        - apply (Permutation_in _ L3) in Hin. apply in_app_or in Hin as [Hin|Hin]; [right; apply Kh; rewrite Ehl; apply in_or_app; now left|].
          apply in_app_or in Hin as [Hin|Hin]; [|apply in_app_or in Hin as [Hin|Hin]; [|left; auto]]; right.
          + apply in_map_iff in Hin as (m & <- & Hin). apply Km; now apply Hmm.
          + apply Kh. rewrite Ehl. apply in_or_app. right. apply in_or_app. now left.
        - right. apply Kh. rewrite Ehl. apply in_or_app. right. apply in_or_app. right. now left. }
      assert (forall m, In m (a_meta st0) -> In m (a_meta st) /\ nested inp (l_ranges m)) as Hmm.
      { intros m Hin. split; [rewrite H5; apply in_or_app; now left|]. apply (T3 m Hin). }
      pose proof H3 as Htk. apply tokenize_spec in H3 as (K1 & K2 & K3 & _ & K5 & K6 & K7). destruct (Nat.le_gt_cases (S j) (length inp)) as [Hj|Hj].
      + specialize (K5 Hj). assert (begins_line inp (S j)) as Hb by (destruct Hje as [->|Hje]; [lia|]; right; cbn; now rewrite Nat.sub_0_r). specialize (K7 Hj Hb).
        assert (forall m, In m (a_meta st) -> nested inp (l_ranges m)) as Hne.
        { intros m Hin. rewrite H5 in Hin. apply in_app_or in Hin as [Hin|Hin]; [apply (T3 m Hin)|]. rewrite Forall_forall in K7. now apply K7. }
        assert (lc = S (line_feeds_before inp (length inp))) as Elc.
        { destruct (tiles_nums inp _ _ _ (S (a_line st0)) K5) as [_ N]; [|assumption|assumption|].
          - eapply Forall_impl; [|exact K7]. intros a [_ Ha']. exact Ha'.
          - rewrite K1, <- N. exact Eend. }
        apply (shows (mk (a_heap st) (a_meta st) lc) Hwf Hs Hti lost_line True); cbn [c_input c_meta c_line_count].
        * intros m Hin. left. auto.
        * intros ix' k' E Hk. assert (ix' = ix) as -> by congruence. apply (Kt ((l ++ [(a_index st0, j)]) ++ map leaf_line (i :: ls)) (S (length inp))); [exact (tiles_app _ _ _ _ _ _ Ht1 K5)|lia| |lia].
          intros s Hin. apply in_app_or in Hin as [Hin|Hin]; [now apply Kl|].
          apply in_map_iff in Hin as (m & <- & Hin). assert (In m (a_meta st)) as Hm by (rewrite H5; apply in_or_app; now right). right. apply Km; auto.
      + specialize (K6 Hj). assert (j = length inp) as -> by lia. rewrite Eend in Ej. destruct ls as [|x ls]; [|discriminate]. cbn [map length] in K1, K6. injection K6 as K6.
        assert (past (mk (a_heap st) (a_meta st) lc) i) as Hp.
        { split; cbn [c_input].
          - inversion K2 as [|? ? (s & Es & _) _]; subst. unfold leaf_line, line_range in K6. rewrite Es in *. cbn in *. exists (S (length inp)), (length inp). split; [now rewrite <- K6|].
            unfold slice. now replace (length inp - S (length inp)) with 0 by lia.
          - rewrite (K3 0 i eq_refl). lia. }
        apply (shows (mk (a_heap st) (a_meta st) lc) Hwf Hs Hti lost_line True); cbn [c_input c_meta c_line_count].
        * intros m Hin. rewrite H5 in Hin. apply in_app_or in Hin as [Hin|[<-|[]]]; [left; apply (T3 m Hin)|right; split; [exact I|exact Hp]].
        * intros ix' k' E Hk. assert (ix' = ix) as -> by congruence. destruct (Nat.eq_dec k' (S (line_feeds_before inp (length inp)))) as [->|Hne].
          -- left. replace (S (line_feeds_before inp (length inp))) with (l_line i) by exact (proj2 Hp). apply B2. rewrite H5. apply in_or_app. right. now left.
          -- apply (Kt (l ++ [(a_index st0, length inp)]) (S (length inp))); [assumption|lia| |lia]. intros s Hin. now apply Kl.
  Qed.

  Lemma fault_shows p h meta lc : fault inp p h meta lc -> single_lines inp (read_so_far inp) -> shows_all (mk h meta lc) (stands_or_past lost_line inp).
  Proof.
    intros Hf Hs. pose proof (wf_fault inp loc rk src _ _ _ _ Hf) as Hwf. destruct (fault_tidy inp _ _ _ _ Hf Hs) as [Hs' Ht]. unfold read_so_far in Hs.
    destruct Hf as [e st lc Ha|e st lc h Ha Hr].
    - now apply stopped_shows with e.
    - pose proof (resolve_spec _ _ _ (analysed _ _ _ Ha)) as Hsp. rewrite Hr in Hsp. destruct Hsp as [_ Htx].
      pose proof (resolve_parts (a_heap st) (a_cs st) (a_cn st)) as Hp. rewrite Hr in Hp.
      apply shows_weaken with (stands_for blank_text inp); [|now apply complete_shows]. intros k x (t & T1 & T2). left. exists t. unfold lost_line. tauto.
  Qed.

  Theorem parse_shows x : parse_context inp loc rk src = Raise (ParseError x) -> single_lines inp (read_so_far inp) ->
    (rk = TextReporter -> text_snippet loc src (stands_or_past lost_line inp) (er_snippet x)) /\
    (rk = HtmlReporter -> html_snippet loc src (stands_or_past lost_line inp) (er_snippet x)) /\
    (rk = TerminalReporter -> terminal_snippet src (stands_or_past lost_line inp) (er_snippet x)).
  Proof.
    intros H Hs. apply parse_raise in H as [(p & h & meta & lc & Hf & He)|[H _]]; [|discriminate].
    destruct (parse_error (mk h meta lc) p) as [y|y] eqn:E; [injection He as ->|].
    - pose proof (fault_shows _ _ _ _ Hf Hs) as Hsh. pose proof (parse_printed (mk h meta lc) p y E) as Hp.
      split; [|split]; intro Hk; [exact (text_shows (mk h meta lc) _ _ Hsh Hk Hp)|exact (html_shows (mk h meta lc) _ _ Hsh Hk Hp)|exact (terminal_shows (mk h meta lc) _ _ Hsh Hk Hp)].
    - exfalso. subst y. destruct (fault_prints inp loc rk src _ _ _ _ Hf) as [(st & e' & prev & _ & _ & _ & _ & _ & _ & H3)|[[z Hz]|[_ Hz]]]; congruence.
  Qed.
End Faults.

(** * Complaints about parsed documents *)

Section Complaints.
  Context {inp : text} {loc : locale} {rk : reporter_kind} {src : option text} {c : ctx} (HP : parse_context inp loc rk src = Ok c).

  Theorem complaint_shows v x : validation_error c v = Ok x -> single_lines inp (c_heap c) ->
    (rk = TextReporter -> text_snippet loc src (stands_for blank_text inp) (er_snippet x)) /\
    (rk = HtmlReporter -> html_snippet loc src (stands_for blank_text inp) (er_snippet x)) /\
    (rk = TerminalReporter -> terminal_snippet src (stands_for blank_text inp) (er_snippet x)).
  Proof.
    intros Hv Hs. pose proof (wf_parse inp loc rk src c HP) as Hwf. pose proof (parsed_tidy HP Hs) as Ht.
    pose proof (proj1 (parse_ok inp loc rk src c) HP) as (st & lc & r & Ha & Hr & ->). cbn [c_heap c_meta] in *.
    pose proof (resolve_spec _ _ _ (analysed _ _ _ Ha)) as Hsp. rewrite Hr in Hsp. pose proof (rs_text _ _ Hsp) as Htx.
    pose proof (resolve_parts (a_heap st) (a_cs st) (a_cn st)) as Hp. rewrite Hr in Hp.
    pose proof (complete_shows inp loc rk src st lc r Ha Hwf Htx Hp Hs Ht) as Hsh. pose proof (validation_printed _ v x Hv) as Hpr.
    split; [|split]; intro Hk; [exact (text_shows _ _ _ Hsh Hk Hpr)|exact (html_shows _ _ _ Hsh Hk Hpr)|exact (terminal_shows _ _ _ Hsh Hk Hpr)].
  Qed.
  Theorem call_shows s k x : reach c s -> snd (run_call k s) = Raise (ValidationError x) -> single_lines inp (c_heap c) ->
    (rk = TextReporter -> text_snippet loc src (stands_for blank_text inp) (er_snippet x)) /\
    (rk = HtmlReporter -> html_snippet loc src (stands_for blank_text inp) (er_snippet x)) /\
    (rk = TerminalReporter -> terminal_snippet src (stands_for blank_text inp) (er_snippet x)).
  Proof. intros Hr E. destruct (session_fault HP s k x Hr E) as [v Hv]. exact (complaint_shows v x Hv). Qed.
End Complaints.
