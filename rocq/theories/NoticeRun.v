(** NoticeRun: the words of every error are those of its notice. *)
From Verif Require Import Base Regex Grammar Types Messages Scan Analyzer HeapFacts AnalyzerInv SpecText AnalyzerText AnalyzerTiles AnalyzerLines AnalyzerFinal AnalyzerBounds SpecTree AnalyzerTree
  Resolver SpecResolve ResolverIndex ResolverFields ResolverSections ResolverFinal ResolverComments StepChange TokenStep ScanProofs ScanFacts AnalyzerLoop ReadLinks
  Reporter Errors Context Elements Session Faults SpecLookup SpecSelect SpecRead SpecApi Reads ReporterFacts ReporterTags ParseErrors ParseContext ParseOutcome SpecErrors ParseTexts PropAnalysisProofs
  LookupDoc LookupProofs CommentLines RegexBounds SelectProofs ApiDoc ApiInv ApiState ApiOps SessionInv SessionRun PropLookupProofs FaultProofs PropErrorsProofs SpecNotice NoticeProofs OpenKeyProofs.

Lemma human_is c e l : human_line c e = Ok l -> l = S (n_line (hget (c_heap c) e)).
Proof. unfold human_line, node_line. destruct (itype_eqb _ _); [discriminate|]. cbn [bind]. intros [= <-]. apply Nat.add_1_r. Qed.
Lemma tpl_is c e t : tpl c e = Ok t -> n_template (hget (c_heap c) e) = Some t.
Proof. unfold tpl, key_or. destruct (n_template _); [now intros [= ->]|discriminate]. Qed.
Lemma key_is c e t : Errors.key c e = Ok t -> n_key (hget (c_heap c) e) = Some t.
Proof. unfold Errors.key, key_or. destruct (n_key _); [now intros [= ->]|discriminate]. Qed.
Lemma leaf_error_words c msg i x : leaf_error c msg i = Ok x -> er_text x = msg (S (l_line i)).
Proof. intro H. unfold leaf_error in H. apply build_ok in H as (H & _). unfold human in H. rewrite Nat.add_1_r in H. congruence. Qed.
Lemma node_error_words c msg e x : node_error c msg e = Ok x -> msg (S (n_line (hget (c_heap c) e))) = Ok (er_text x).
Proof. intro H. unfold node_error in H. apply build_ok in H as (H & _). apply bind_ok in H as (l & Hl & H). apply human_is in Hl as ->. exact H. Qed.
Lemma skipn_index i : forall chain, match skipn (index_of i chain) chain with [] => True | e :: r => e = i /\ last (e :: r) 0 = last chain 0 end.
Proof.
  induction chain as [|y chain IH]; [exact I|]. destruct (Nat.eqb_spec i y) as [->|D].
  - replace (index_of y (y :: chain)) with 0 by (cbn [index_of]; now rewrite Nat.eqb_refl). now split.
  - replace (index_of i (y :: chain)) with (S (index_of i chain)) by (cbn [index_of]; now rewrite (proj2 (Nat.eqb_neq _ _) D)). cbn [skipn].
    destruct (skipn (index_of i chain) chain) as [|e r] eqn:E; [exact I|]. destruct IH as [H1 H2]. split; [exact H1|]. rewrite H2.
    destruct chain; [destruct (index_of i []); discriminate|reflexivity].
Qed.
Lemma last_of_is {A} (l : list A) d x : last_of l = Ok x -> x = last l d.
Proof.
  destruct l as [|a l _] using rev_ind; [discriminate|]. rewrite last_last. unfold last_of. rewrite rev_app_distr. cbn. now intros [= ->].
Qed.

(** words about a line that fits no pattern *)
Lemma invalid_words c l x : rget (l_ranges l) R_line <> None ->
  ~ In nl (at_range (c_input c) (leaf_line l)) -> invalid_line c l = Ok x ->
  (exists col, leaves_key_open (at_range (c_input c) (leaf_line l)) col /\ er_text x = lc_unterminated_escaped_key (c_locale c) (S (l_line l)) /\
     sel_from (er_selection x) = MkCursor col (fst (leaf_line l) + col) (l_line l)) \/
  (~ (exists col, leaves_key_open (at_range (c_input c) (leaf_line l)) col) /\ er_text x = lc_invalid_line (c_locale c) (S (l_line l)) /\
     sel_from (er_selection x) = MkCursor 0 (fst (leaf_line l)) (l_line l)).
Proof.
  intros Hr Hnl H. unfold invalid_line in H. apply bind_ok in H as (lr & Hlr & H). unfold key_or in Hlr.
  destruct (rget (l_ranges l) R_line) as [lr'|] eqn:E; [|discriminate]. injection Hlr as ->.
  assert (leaf_line l = lr) as El by (unfold leaf_line, line_range; now rewrite E). rewrite El in *.
  change (slice (c_input c) (fst lr) (snd lr)) with (at_range (c_input c) lr) in H.
  destruct (match_at _ _ _) as [mo|] eqn:Em.
  - left. destruct (open_some _ mo Hnl Em) as (b & e & Hs & Ho). exists e. split; [exact Ho|].
    unfold unterminated_escaped_key in H. rewrite Hs in H. cbn [snd] in H. apply build_ok in H as (H1 & _ & H3). unfold human in H1. rewrite Nat.add_1_r in H1.
    split; [congruence|]. rewrite E in H3. cbn [key_or bind] in H3. apply bind_ok in H3 as (to & _ & H3). injection H3 as <-. reflexivity.
  - right. split; [now apply open_none|]. apply build_ok in H as (H1 & _ & H3). unfold human in H1. rewrite Nat.add_1_r in H1. split; [congruence|].
    unfold select_line, select_range, selection, cursor in H3. cbn [leaf_ins i_ranges i_line] in H3. rewrite E in H3. cbn [key_or bind] in H3. injection H3 as <-. cbn. now rewrite Nat.sub_diag.
Qed.

Section Parse.
  Context (inp : text) (loc : locale) (rk : reporter_kind) (src : option text).
  Local Notation mk := (MkCtx inp loc rk src).
  Lemma fault_single p h meta lc : fault inp p h meta lc -> forall l, leaf_of p = Some l -> rget (l_ranges l) R_line <> None /\ ~ In nl (at_range inp (leaf_line l)).
  Proof.
    intros Hf l Hl. destruct Hf as [e st lc Ha|e st lc h Ha Hr].
    - destruct (analyze_stopped _ _ _ _ Ha) as (st0 & Hr & Hix & Hst). destruct (reach_text _ _ Hr) as [T1 _ _ _]. specialize (T1 ltac:(lia)).
      destruct Hst as [i ls H1 H2 H3 H4|op k j i ls H1 H2 H3 H4 H5 H6]; [|subst e; discriminate].
      assert (l = i) as -> by (destruct H4 as [->|[->|[->|[->| ->]]]]; cbn in Hl; congruence).
      apply tokenize_spec in H1 as (_ & _ & _ & _ & _ & _ & K7). specialize (K7 ltac:(lia) T1). inversion K7 as [|? ? [K K'] _]; subst.
      split; [|exact K']. destruct K as (lb & le & El & _). congruence.
    - pose proof (resolve_spec _ _ _ (analysed _ _ _ Ha)) as Hsp. rewrite Hr in Hsp. destruct Hsp as [Hce _]. destruct Hce; discriminate.
  Qed.
  Lemma parse_error_noted p h meta lc x : fault inp p h meta lc -> parse_error (mk h meta lc) p = Ok x ->
    exists n, fault_notice inp h p n /\ er_text x = told loc n.
  Proof.
    intros Hf H. destruct p as [i|i|i|i|i s|f|i|i|i ch|a b d|a|a]; cbn [parse_error] in H.
    - destruct (fault_single _ _ _ _ Hf i eq_refl) as [R1 R2].
      destruct (invalid_words (mk h meta lc) i x) as [(col & H1 & H2 & _)|(H1 & H2 & _)]; [exact R1|exact R2|exact H|..].
      + eexists. split; [eapply fn_escape; exact H1|exact H2].
      + eexists. split; [eapply fn_pattern; exact H1|exact H2].
    - apply leaf_error_words in H. eexists. split; [constructor|exact H].
    - apply leaf_error_words in H. eexists. split; [constructor|exact H].
    - apply leaf_error_words in H. eexists. split; [constructor|exact H].
    - unfold section_hierarchy_layer_skip in H. do 3 (apply bind_ok in H as (? & _ & H)). apply build_ok in H as (H & _). unfold human in H. rewrite Nat.add_1_r in H.
      injection H as H. eexists. split; [constructor|symmetry; exact H].
    - unfold unterminated_multiline_field in H. do 3 (apply bind_ok in H as (? & _ & H)). apply build_ok in H as (H & _).
      apply bind_ok in H as (k & Hk & H). apply bind_ok in H as (l & Hl & H). apply key_is in Hk. apply human_is in Hl as ->. injection H as H.
      eexists. split; [constructor; exact Hk|symmetry; exact H].
    - apply node_error_words in H. injection H as H. eexists. split; [constructor|symmetry; exact H].
    - apply node_error_words in H. injection H as H. eexists. split; [constructor|symmetry; exact H].
    - unfold cyclic_dependency in H. apply bind_ok in H as (z & Hz & H). apply bind_ok in H as (y & Hy & H). apply bind_ok in H as (e & He & H).
      do 3 (apply bind_ok in H as (? & _ & H)). apply build_ok in H as (H & _). apply bind_ok in H as (l & Hl & H). apply bind_ok in H as (t & Ht & H).
      apply human_is in Hl as ->. apply tpl_is in Ht. injection H as H. exists (CopiedIntoItself (S (n_line (hget h e))) t). split; [|symmetry; exact H].
      constructor; [|exact Ht]. pose proof (skipn_index i ch) as G. apply (last_of_is _ 0) in Hz.
      destruct (skipn (index_of i ch) ch) as [|e0 r]; [discriminate Hy|]. injection Hy as ->. destruct G as [-> G]. rewrite G in Hz. subst z.
      destruct (opt_is _); [injection He as <-; now right|]. destruct (opt_is _); [injection He as <-; now left|discriminate].
    - unfold two_or_more_templates_found in H. apply build_ok in H as (H & _). apply bind_ok in H as (t & Ht & H). apply tpl_is in Ht. injection H as H.
      eexists. split; [constructor; exact Ht|symmetry; exact H].
    - apply node_error_words in H. apply bind_ok in H as (t & Ht & H). apply tpl_is in Ht. injection H as H. eexists. split; [constructor; exact Ht|symmetry; exact H].
    - apply node_error_words in H. apply bind_ok in H as (t & Ht & H). apply tpl_is in Ht. injection H as H. eexists. split; [constructor; exact Ht|symmetry; exact H].
  Qed.
  Lemma parse_noted x : parse_context inp loc rk src = Raise (ParseError x) ->
    exists p h meta lc n, fault inp p h meta lc /\ fault_notice inp h p n /\ er_text x = told loc n.
  Proof.
    intro H. apply parse_raise in H as [(p & h & meta & lc & Hf & He)|[H _]]; [|discriminate].
    destruct (parse_error (mk h meta lc) p) as [y|y] eqn:E; [injection He as ->|].
    - destruct (parse_error_noted _ _ _ _ _ Hf E) as (n & H1 & H2). exists p, h, meta, lc, n. auto.
    - exfalso. subst y. destruct (fault_prints inp loc rk src _ _ _ _ Hf) as [(st & e' & prev & _ & _ & _ & _ & _ & _ & H3)|[[z Hz]|[_ Hz]]]; congruence.
  Qed.
End Parse.

Section Validation.
  Context (c : ctx).
  Lemma validation_noted v x : validation_error c v = Ok x ->
    (exists n, complaint_notice (c_heap c) v n /\ er_text x = told (c_locale c) n) \/ own_words v = Some (er_text x).
  Proof.
    assert (forall q k y, Ok (keyed_message c q k) = Ok y -> y = told (c_locale c) (match k with None => Wrong q | Some k => WrongKey q k end)) as KM.
    { intros q k y [= <-]. now destruct k. }
    intro H. destruct v as [m e|m e|m e|m e|e|k p q|e|m e|k es q|k e q]; cbn [validation_error] in H;
      unfold v_comment_error, v_element_error, v_key_error, v_missing_comment, v_missing_element, v_unexpected_element, v_unexpected_multiple_elements, v_unexpected_element_type in H.
    - left. apply build_ok in H as (H & _). injection H as H. eexists. split; [constructor|symmetry; exact H].
    - right. apply build_ok in H as (H & _). injection H as H. cbn. now rewrite H.
    - left. apply build_ok in H as (H & _). injection H as H. eexists. split; [constructor|symmetry; exact H].
    - left. assert (er_text x = lc_value_error (c_locale c) m) as E.
      { unfold v_value_error in H. destruct (opt_is _); [|destruct (itype_eqb _ _); [destruct (n_lines _)|]];
          (apply bind_ok in H as (s & _ & H); apply bind_ok in H as (s' & _ & H); injection H as <-; reflexivity). }
      eexists. split; [constructor|exact E].
    - left. apply build_ok in H as (H & _). injection H as H. eexists. split; [constructor|symmetry; exact H].
    - left. apply build_ok in H as (H & _). apply KM in H. destruct k as [k|]; eexists; (split; [constructor|exact H]).
    - left. unfold v_missing_value in H. apply bind_ok in H as (mf & Hmf & H). apply bind_ok in H as (s & _ & H). apply bind_ok in H as (to & _ & H).
      destruct mf as [[t f]|]; [injection H as <-|discriminate]. cbn [er_text].
      destruct (n_type (hget (c_heap c) e)) eqn:Et; try discriminate Hmf.
      all: try (apply bind_ok in Hmf as (k & Hk & Hmf); apply key_is in Hk; apply bind_ok in Hmf as (f' & _ & Hmf); injection Hmf as <- _;
                eexists; split; [first [apply cn_field; [tauto|exact Hk]|apply cn_entry; [exact Et|exact Hk]]|reflexivity]).
      apply bind_ok in Hmf as (p & Hp & Hmf). apply bind_ok in Hmf as (k & Hk & Hmf). apply key_is in Hk. apply bind_ok in Hmf as (f' & _ & Hmf). injection Hmf as <- _.
      unfold key_or in Hp. destruct (n_parent (hget (c_heap c) e)) as [p'|] eqn:Ep; [injection Hp as ->|discriminate].
      eexists. split; [eapply cn_item; [exact Et|exact Ep|exact Hk]|reflexivity].
    - apply build_ok in H as (H & _). destruct m as [[|w m]|].
      + left. injection H as H. eexists. split; [constructor; now right|symmetry; exact H].
      + right. injection H as H. cbn. now rewrite H.
      + left. injection H as H. eexists. split; [constructor; now left|symmetry; exact H].
    - left. apply build_ok in H as (H & _). apply KM in H. destruct k as [k|]; eexists; (split; [constructor|exact H]).
    - left. apply build_ok in H as (H & _). apply KM in H. destruct k as [k|]; eexists; (split; [constructor|exact H]).
  Qed.
End Validation.

Lemma open_key_words inp loc rk src x i st lc : analyze inp = AErr (PInvalidLine i) st lc -> parse_context inp loc rk src = Raise (ParseError x) ->
  (exists col, leaves_key_open (at_range inp (leaf_line i)) col /\ er_text x = told loc (KeyNotClosed (S (l_line i))) /\
     sel_from (er_selection x) = MkCursor col (fst (leaf_line i) + col) (l_line i)) \/
  (~ (exists col, leaves_key_open (at_range inp (leaf_line i)) col) /\ er_text x = told loc (NoPattern (S (l_line i))) /\
     sel_from (er_selection x) = MkCursor 0 (fst (leaf_line i)) (l_line i)).
Proof.
  intros Ha H. destruct (fault_single inp (PInvalidLine i) _ _ _ (fault_line inp _ _ _ Ha) i eq_refl) as [R1 R2].
  unfold parse_context in H. rewrite Ha in H. cbn [parse_error] in H.
  destruct (invalid_line _ i) as [y|y] eqn:E; [injection H as ->|].
  - exact (invalid_words (MkCtx inp loc rk src (a_heap st) (a_meta st) lc) i x R1 R2 E).
  - exfalso. injection H as ->. destruct (fault_prints inp loc rk src _ _ _ _ (fault_line inp _ _ _ Ha)) as [(? & ? & ? & _ & K & _)|[[z Hz]|[_ Hz]]]; [discriminate| |];
      cbn [parse_error] in Hz; congruence.
Qed.
Lemma same_words inp inp' loc rk rk' src src' x y : shipped loc -> parse_context inp loc rk src = Raise (ParseError x) -> parse_context inp' loc rk' src' = Raise (ParseError y) ->
  er_text x = er_text y ->
  exists p h meta lc p' h' meta' lc' n, fault inp p h meta lc /\ fault_notice inp h p n /\ fault inp' p' h' meta' lc' /\ fault_notice inp' h' p' n /\ er_text x = told loc n.
Proof.
  intros Hl H H' E. destruct (parse_noted _ _ _ _ _ H) as (p & h & meta & lc & n & F & N1 & T), (parse_noted _ _ _ _ _ H') as (p' & h' & meta' & lc' & n' & F' & N1' & T').
  rewrite T, T' in E. apply (told_apart loc n n' Hl) in E as <-. exists p, h, meta, lc, p', h', meta', lc', n. auto.
Qed.
