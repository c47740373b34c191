(** PropErrorsProofs: the statements of PropErrors for parsed documents. *)
From Verif Require Import Base Regex Grammar Types Messages Scan Analyzer HeapFacts AnalyzerInv SpecText AnalyzerText AnalyzerTiles AnalyzerLines AnalyzerFinal AnalyzerBounds SpecTree AnalyzerTree
  Resolver SpecResolve ResolverIndex ResolverFields ResolverSections ResolverFinal ResolverComments StepChange TokenStep ScanProofs ScanFacts AnalyzerLoop ReadLinks
  Reporter Errors Context Elements Session Faults SpecLookup SpecSelect SpecRead SpecApi Reads ReporterFacts ReporterTags ParseErrors ParseContext ParseOutcome SpecErrors ParseTexts PropAnalysisProofs
  LookupDoc LookupProofs CommentLines RegexBounds SelectProofs ApiDoc ApiInv ApiState ApiOps SessionInv SessionRun PropLookupProofs FaultProofs.

(** the instructions read when the analysis ended or stopped *)
Definition read_so_far (inp : text) : heap :=
  match analyze inp with AOk st _ | AErr _ st _ => a_heap st | _ => [] end.

Section ParseFaults.
  Context (inp : text) (loc : locale) (rk : reporter_kind) (src : option text).
  Local Notation mk := (MkCtx inp loc rk src).

  Lemma fault_leaf p h meta lc : fault inp p h meta lc -> forall l, leaf_of p = Some l -> own_leaf (mk h meta lc) l.
  Proof.
    intros Hf l Hl. destruct Hf as [e st lc Ha|e st lc h Ha Hr].
    - destruct (analyze_stopped _ _ _ _ Ha) as (st0 & Hr & Hix & Hst). destruct (reach_text _ _ Hr) as [T1 _ _ _]. specialize (T1 ltac:(lia)).
      destruct Hst as [i ls H1 H2 H3 H4|op k j i ls H1 H2 H3 H4 H5 H6]; [|subst e; discriminate].
      assert (l = i) as -> by (destruct H4 as [->|[->|[->|[->| ->]]]]; cbn in Hl; congruence).
      apply tokenize_spec in H1 as (_ & _ & _ & _ & _ & _ & K7). specialize (K7 ltac:(lia) T1). inversion K7 as [|? ? [K _] _]; subst.
      split; [cbn [c_meta]; rewrite H3; apply in_or_app; right; now left|exact K].
    - pose proof (resolve_spec _ _ _ (analysed _ _ _ Ha)) as Hsp. rewrite Hr in Hsp. destruct Hsp as [Hce _]. destruct Hce; discriminate.
  Qed.
  Lemma final_tidy st lc : analyze inp = AOk st lc -> single_lines inp (a_heap st) -> Tidy inp (a_heap st) (a_meta st).
  Proof.
    intros Ha Hs. destruct (final_reach _ _ _ Ha) as (st0 & Hr & _ & Eh & Em & _). rewrite Eh in *. rewrite Em, flush_eq. exact (proj1 (reach_tidy _ _ Hr Hs)).
  Qed.
  Lemma single_same h0 h : same_text h0 h -> single_lines inp h0 -> single_lines inp h.
  Proof. intros [Hl Ht] Hs x Hx. rewrite Hl in Hx. destruct (text_rest _ _ (Ht x)) as (_ & E & _). rewrite E. now apply Hs. Qed.
  Lemma fault_tidy p h meta lc : fault inp p h meta lc -> single_lines inp (read_so_far inp) -> single_lines inp h /\ Tidy inp h meta.
  Proof.
    unfold read_so_far. intros Hf. destruct Hf as [e st lc Ha|e st lc h Ha Hr]; rewrite Ha; intro Hs.
    - split; [assumption|]. exact (stopped_tidy _ _ _ _ Ha Hs).
    - pose proof (resolve_spec _ _ _ (analysed _ _ _ Ha)) as Hsp. rewrite Hr in Hsp. destruct Hsp as [_ Ht].
      pose proof (resolve_comments (a_heap st) (a_cs st) (a_cn st)) as Hc. rewrite Hr in Hc.
      split; [now apply single_same with (a_heap st)|]. apply (tidy_resolved inp (a_heap st)); [assumption|exact Hc|exact (analysed_comments _ _ _ Ha)|exact (final_tidy _ _ Ha Hs)].
  Qed.

  Lemma parse_selects x : parse_context inp loc rk src = Raise (ParseError x) -> selects (inside inp) (er_selection x).
  Proof.
    intro H. apply parse_raise in H as [(p & h & meta & lc & Hf & He)|[H _]]; [|discriminate].
    destruct (parse_error (mk h meta lc) p) as [y|y] eqn:E; [injection He as ->|].
    - pose proof (wf_fault inp loc rk src _ _ _ _ Hf) as Hwf. exact (marks_inside (mk h meta lc) Hwf _ (parse_marks (mk h meta lc) Hwf p y (fault_leaf _ _ _ _ Hf) E)).
    - exfalso. subst y. destruct (fault_prints inp loc rk src _ _ _ _ Hf) as [(st & e' & prev & _ & _ & _ & _ & _ & _ & H3)|[[z Hz]|[_ Hz]]]; congruence.
  Qed.
  Lemma parse_selects_exact x : parse_context inp loc rk src = Raise (ParseError x) -> single_lines inp (read_so_far inp) -> selects (exact inp) (er_selection x).
  Proof.
    intros H Hs. apply parse_raise in H as [(p & h & meta & lc & Hf & He)|[H _]]; [|discriminate].
    destruct (parse_error (mk h meta lc) p) as [y|y] eqn:E; [injection He as ->|].
    - pose proof (wf_fault inp loc rk src _ _ _ _ Hf) as Hwf. destruct (fault_tidy _ _ _ _ Hf Hs) as [Hs' Ht].
      exact (marks_exact (mk h meta lc) Hwf _ (tidy_lined (mk h meta lc) Hs' Ht) (parse_marks (mk h meta lc) Hwf p y (fault_leaf _ _ _ _ Hf) E)).
    - exfalso. subst y. destruct (fault_prints inp loc rk src _ _ _ _ Hf) as [(st & e' & prev & _ & _ & _ & _ & _ & _ & H3)|[[z Hz]|[_ Hz]]]; congruence.
  Qed.
End ParseFaults.

Lemma begin_exact inp : selects (exact inp) DOCUMENT_BEGIN.
Proof. assert (exact inp (MkCursor 0 0 0)) as H by (exists 0; cbn; repeat split; [now left|lia|auto]). split; [exact H|]. split; [exact H|]. reflexivity. Qed.
Lemma exact_inside inp cu : exact inp cu -> inside inp cu.
Proof. intros (b & H1 & H2 & H3 & _). exists b. auto. Qed.

Section Parsed.
  Context {inp : text} {loc : locale} {rk : reporter_kind} {src : option text} {c : ctx} (HP : parse_context inp loc rk src = Ok c).
  Local Notation h := (c_heap c).
  Local Notation nd := (hget (c_heap c)).

  Lemma parsed_sdoc : SDoc h /\ n_comments (nd 0) = None.
  Proof.
    pose proof (pf_doc (facts HP)) as L. pose proof (proj1 (parse_ok inp loc rk src c) HP) as (st & lc & r & Ha & Hr & Ec).
    assert (c_heap c = r) as Eh by (subst c; reflexivity). clear Ec.
    pose proof (resolve_comments (a_heap st) (a_cs st) (a_cn st)) as Hc. rewrite Hr in Hc. cbn in Hc. rewrite <- Eh in Hc.
    pose proof (resolve_spec _ _ _ (analysed _ _ _ Ha)) as Hs. rewrite Hr, <- Eh in Hs.
    pose proof (analysed_comments _ _ _ Ha) as H0. destruct (final_reach _ _ _ Ha) as (st0 & Hr0 & _ & E0 & _). pose proof (cl_heap _ _ (reach_clines _ _ Hr0)) as C. rewrite <- E0 in C.
    split; [constructor|].
    - exact (ld_node _ _ L).
    - intros x y Hx Hy. exact (begins_mono _ _ L x y Hx Hy).
    - intros x Hx. destruct (Hc x) as [k Hk]. rewrite Hk. destruct (Nat.eq_dec k 0) as [->|]; [rewrite (H0 0) by auto; exists 0, 0; cbn; auto|].
      destruct (le_lt_dec (length (a_heap st)) k); [rewrite (H0 k) by auto; exists 0, 0; cbn; auto|]. apply (tl_forall _ _ C k). lia.
    - pose proof (s_doc _ (an_s _ _ _ (analysed _ _ _ Ha))) as Hd. rewrite (rs_other _ _ Hs 0); [apply (H0 0); auto|congruence|].
      intro K. apply kind_cls in K. cbn in K. congruence.
  Qed.
  Lemma complaint_selects v x : validation_error c v = Ok x -> selects (inside inp) (er_selection x).
  Proof.
    intro H. pose proof (wf_parse inp loc rk src c HP) as Hwf. destruct parsed_sdoc as [HS H0]. pose proof (pf_input (facts HP)) as Hi.
    destruct (validation_marks c Hwf HS v x H0 H) as [Hm| ->].
    - rewrite <- Hi. exact (marks_inside c Hwf _ Hm).
    - destruct (begin_exact inp) as (A & B & C). split; [now apply exact_inside|]. split; [now apply exact_inside|]. exact C.
  Qed.
  Lemma parsed_tidy : single_lines inp h -> Tidy inp h (c_meta c).
  Proof.
    intro Hs. pose proof (proj1 (parse_ok inp loc rk src c) HP) as (st & lc & r & Ha & Hr & Ec).
    assert (c_heap c = r /\ c_meta c = a_meta st) as (Eh & Em) by (subst c; auto). rewrite Eh, Em in *. clear Ec.
    pose proof (resolve_comments (a_heap st) (a_cs st) (a_cn st)) as Hc. rewrite Hr in Hc. cbn in Hc.
    pose proof (resolve_spec _ _ _ (analysed _ _ _ Ha)) as Hsp. rewrite Hr in Hsp. pose proof (rs_text _ _ Hsp) as Ht.
    apply (tidy_resolved inp (a_heap st)); [assumption|exact Hc|exact (analysed_comments _ _ _ Ha)|]. apply (final_tidy _ _ _ Ha).
    intros x0 Hx. destruct Ht as [Hl Ht]. destruct (text_rest _ _ (Ht x0)) as (_ & E & _). rewrite <- E. apply Hs. now rewrite Hl.
  Qed.
  Lemma complaint_selects_exact v x : validation_error c v = Ok x -> single_lines inp h -> selects (exact inp) (er_selection x).
  Proof.
    intros H Hs. pose proof (wf_parse inp loc rk src c HP) as Hwf. destruct parsed_sdoc as [HS H0]. pose proof (pf_input (facts HP)) as Hi.
    destruct (validation_marks c Hwf HS v x H0 H) as [Hm| ->]; [|apply begin_exact].
    rewrite <- Hi. apply (marks_exact c Hwf); [|exact Hm]. apply tidy_lined; rewrite Hi; [exact Hs|]. exact (parsed_tidy Hs).
  Qed.

  Lemma session_fault s k x : reach c s -> snd (run_call k s) = Raise (ValidationError x) -> exists v, validation_error c v = Ok x.
  Proof.
    intros Hr E. pose proof (doc_of_parse inp loc rk src c HP) as HD. destruct (traced_call c k s (iv_ctx _ _ (inv_reach c HD s Hr))) as [_ T]. exact (T x E).
  Qed.
  Lemma missing_fault s m x : reach c s -> snd (missing_error (A := unit) m s) = Raise (ValidationError x) -> exists v, validation_error c v = Ok x.
  Proof.
    intros Hr E. pose proof (doc_of_parse inp loc rk src c HP) as HD. destruct (t_missing c (A := unit) m s (iv_ctx _ _ (inv_reach c HD s Hr))) as [_ T]. exact (T x E).
  Qed.
  Lemma made_fault s o m x : reach c s ->
    In (Ok x) [snd (error_of o m s); snd (comment_error_of o m s); snd (key_error_of o m s); snd (value_error_of o m s)] -> exists v, validation_error c v = Ok x.
  Proof.
    intros Hr E. pose proof (doc_of_parse inp loc rk src c HP) as HD. exact (built_fault c o m s x (iv_ctx _ _ (inv_reach c HD s Hr)) E).
  Qed.
  Lemma session_selects s k x : reach c s -> snd (run_call k s) = Raise (ValidationError x) -> (exists v, validation_error c v = Ok x) /\ selects (inside inp) (er_selection x).
  Proof. intros Hr E. destruct (session_fault s k x Hr E) as [v Hv]. split; [now exists v|exact (complaint_selects v x Hv)]. Qed.
  Lemma missing_selects s m x : reach c s -> snd (missing_error (A := unit) m s) = Raise (ValidationError x) -> (exists v, validation_error c v = Ok x) /\ selects (inside inp) (er_selection x).
  Proof. intros Hr E. destruct (missing_fault s m x Hr E) as [v Hv]. split; [now exists v|exact (complaint_selects v x Hv)]. Qed.
  Lemma made_selects s o m x : reach c s ->
    In (Ok x) [snd (error_of o m s); snd (comment_error_of o m s); snd (key_error_of o m s); snd (value_error_of o m s)] ->
    (exists v, validation_error c v = Ok x) /\ selects (inside inp) (er_selection x).
  Proof. intros Hr E. destruct (made_fault s o m x Hr E) as [v Hv]. split; [now exists v|exact (complaint_selects v x Hv)]. Qed.
End Parsed.
