(** Proofs for PropParse. *)
From Coq Require Import Relations.
From Verif Require Import Base Types Scan Messages Analyzer TokenStep HeapFacts SpecRun AnalyzerInv AnalyzerLoop SpecText AnalyzerText
  SpecTree AnalyzerTree AnalyzerFinal AnalyzerBounds AnalyzerCopies Resolver SpecResolve ResolverIndex ResolverFields ResolverSections
  ResolverFinal ResolverComments Reporter Errors Context ReporterFacts ReporterTags ParseErrors ParseContext ParseOutcome LocaleFree SpecErrors ParseTexts.

Lemma terminates inp loc rk src : parse_context inp loc rk src <> Raise Fuel.
Proof. intro H. pose proof (parse_outcome inp loc rk src) as G. now rewrite H in G. Qed.

Lemma loop_advances inp st st' : reach inp st -> a_index st < length inp -> step inp st = SOk st' -> a_index st < a_index st' <= S (length inp).
Proof.
  intros Hr Hi Hs. destruct (reach_inv _ _ Hr) as [HI _]. pose proof (step_inv inp st HI ltac:(lia)) as H. rewrite Hs in H. apply H.
Qed.

Lemma only_parse_errors inp loc rk src : rk <> TerminalReporter ->
  (forall st lc, analyze inp = AOk st lc -> (forall sec, ~ leads_to_dangling sec (a_heap st)) /\
     forall i, on_cycle true (a_heap st) i -> n_template (hget (a_heap st) i) <> None) ->
  (exists c, parse_context inp loc rk src = Ok c) \/ (exists x, parse_context inp loc rk src = Raise (ParseError x)).
Proof.
  intros Hk Hn. pose proof (parse_outcome inp loc rk src) as G. destruct (parse_context inp loc rk src) as [c|e]; [eauto|].
  destruct e; try contradiction; [eauto| |].
  - exfalso. destruct G as [G|(st & lc & Ha & [G|G])]; [contradiction|..]; now apply (proj1 (Hn _ _ Ha)) in G.
  - exfalso. destruct G as (st & lc & a & b & Ha & H1 & H2 & _). now apply (proj2 (Hn _ _ Ha)) in H1.
Qed.

(** * Copies *)

Lemma copies_found inp loc rk src c : parse_context inp loc rk src = Ok c ->
  exists st lc, analyze inp = AOk st lc /\
    forall sec i k, copies sec (a_heap st) i k ->
      exists t, candidate sec (a_heap st) k t /\ forall t', candidate sec (a_heap st) k t' -> t' = t.
Proof.
  intro H. apply parse_ok in H as (st & lc & h & Ha & Hr & _). exists st, lc. split; [assumption|].
  pose proof (resolve_spec _ _ _ (analysed _ _ _ Ha)) as Hsp. rewrite Hr in Hsp. intros sec i k Hc.
  pose proof (rs_found _ _ Hsp sec i) as Hd. pose proof (rs_one _ _ Hsp i) as H1.
  pose proof (candb_candidate _ _ _ (analysed _ _ _ Ha) sec k) as Hcb.
  match type of Hcb with forall e, In e ?l <-> _ => destruct l as [|t l'] end.
  2: assert (candidate sec (a_heap st) k t) as Ht by (apply Hcb; now left).
  2:{ exists t. split; [assumption|]. intros t' Ht'. destruct (Nat.eq_dec t' t); [assumption|]. exfalso. apply (H1 t' t). exists sec, k. auto. }
  exfalso. apply Hd. exists k. split; [assumption|]. intros t Ht. now apply Hcb in Ht.
Qed.

Section Faults.
  Context (inp : text) (loc : locale) (rk : reporter_kind) (src : option text) (Hk : rk <> TerminalReporter).
  Context (st : ast) (lc : nat) (Ha : analyze inp = AOk st lc).
  Local Notation h0 := (a_heap st).
  Let HA := analysed _ _ _ Ha.

  Lemma copy_in_heap sec i k : copies sec h0 i k -> 0 < i < length h0.
  Proof.
    intros (H1 & H2 & _). split; [|assumption]. destruct i; [|lia].
    pose proof (s_doc _ (an_s _ _ _ HA)) as Hd. apply kind_cls in H2. rewrite Hd in H2. destruct sec; discriminate.
  Qed.
  Lemma dep_in_heap sec i j : depends sec h0 i j -> 0 < i < length h0.
  Proof.
    intros [(k & H1 & _)|(_ & Hs & _)]; [now apply copy_in_heap in H1|].
    destruct (Nat.lt_ge_cases i (length h0)) as [H|H]; [|unfold hget in Hs; rewrite nth_overflow in Hs by lia; discriminate Hs].
    split; [|assumption]. destruct i; [|lia]. pose proof (s_doc _ (an_s _ _ _ HA)) as Hd. apply (kind_cls true) in Hs. rewrite Hd in Hs. discriminate.
  Qed.
  Lemma chain_in_heap sec l e : chain sec h0 l e -> forall x, In x l -> 0 < x < length h0.
  Proof. revert e. induction l as [|y l IH]; intros e; [intros _ x []|]. intros [Hd Hc] x [->|Hx]; [eapply dep_in_heap; eassumption|exact (IH e Hc x Hx)]. Qed.

  (** an error of the resolution, and what is reported *)
  Lemma copy_fault_raised p h : resolve h0 (a_cs st) (a_cn st) = RErr p h ->
    (exists x, parse_context inp loc rk src = Raise (ParseError x) /\ parse_error (MkCtx inp loc rk src h (a_meta st) lc) p = Ok x) \/
    (exists e prev, p = PCyclic e prev /\ In e prev /\ chain true h0 prev e /\ n_template (hget h0 e) = None /\
       n_template (hget h0 (last prev 0)) = None /\ parse_context inp loc rk src = Raise UnboundLocalError).
  Proof.
    intro Hr. assert (fault inp p h (a_meta st) lc) as Hf by (econstructor; eassumption).
    destruct (fault_prints inp loc rk src p h (a_meta st) lc Hf) as [(st' & e & prev & Ha' & Hp & H1 & H2 & H3 & H4 & H5)|[[x Hx]|[Hx _]]].
    - right. rewrite Ha in Ha'. injection Ha' as <-. exists e, prev. repeat (split; [assumption|]).
      apply parse_raise. left. exists p, h, (a_meta st), lc. split; [assumption|]. now rewrite H5.
    - left. exists x. split; [|assumption]. apply parse_raise. left. exists p, h, (a_meta st), lc. split; [assumption|]. now rewrite Hx.
    - contradiction.
  Qed.
  Lemma fault_same p h : resolve h0 (a_cs st) (a_cn st) = RErr p h ->
    copy_error h0 p /\ WF (MkCtx inp loc rk src h (a_meta st) lc) /\ same_text h0 h.
  Proof.
    intro Hr. pose proof (resolve_spec _ _ _ HA) as Hsp. rewrite Hr in Hsp. destruct Hsp as [H1 H2]. split; [assumption|]. split; [|assumption].
    apply wf_fault with p. econstructor; eassumption.
  Qed.
  Lemma same_cursor h i p : same_text h0 h -> node_cursor (hget h i) p = node_cursor (hget h0 i) p.
  Proof. intros [_ H]. destruct (text_fields _ _ (H i)) as (H1 & H2 & _). unfold node_cursor. now rewrite H1, H2. Qed.
  Lemma same_line h i : same_text h0 h -> line_of_node (hget h i) = line_of_node (hget h0 i).
  Proof. intros [_ H]. destruct (text_fields _ _ (H i)) as (H1 & H2 & _). unfold line_of_node, node_cursor. now rewrite H1, H2. Qed.

  Lemma ambiguity_reported : (exists c f e, ambiguous h0 c f e) ->
    exists x c f e k, parse_context inp loc rk src = Raise (ParseError x) /\ ambiguous h0 c f e /\
      n_template (hget h0 c) = Some k /\ er_text x = lc_two_or_more_templates_found loc k /\ er_selection x = line_of_node (hget h0 c).
  Proof.
    intros (c & f & e & sec & k & H1 & H2 & H3 & H4).
    assert (exists c f e, resolve h0 (a_cs st) (a_cn st) = RErr (PTwoTemplates c f e) h0) as (c' & f' & e' & Hr).
    { unfold resolve. pose proof (index_spec h0 _ _ HA) as Hi.
      destruct (index _ _ _ _) as [[ts tn]|x h| |]; try contradiction.
      - exfalso. apply H4. destruct Hi as [Hts Htn]. destruct sec;
          [apply (indexed_one _ _ _ true ts Hts k c f e H1 H2 H3)|apply (indexed_one _ _ _ false tn Htn k c f e H1 H2 H3)].
      - destruct Hi as (-> & _ & _ & c' & f' & e' & -> & _). eauto. }
    destruct (fault_same _ _ Hr) as (Hce & Hwf & Hst). destruct (copy_fault_raised _ _ Hr) as [(x & Hx & Hpe)|(? & ? & ? & _)]; [|discriminate].
    inversion Hce as [? ? ? Ham| | | | |]; subst. pose proof Ham as (sec' & k' & Hc' & _).
    apply (two_templates_is _ Hwf) in Hpe as (t & Ht & Ht1 & Ht2); [|now apply copy_in_heap in Hc'].
    exists x, c', f', e', t. auto 10.
  Qed.

  Lemma not_found_reported : (exists sec i, dangling sec h0 i) -> (forall c f e, ~ ambiguous h0 c f e) ->
    (forall sec i, ~ on_cycle sec h0 i) -> (forall sec, ~ leads_to_dangling sec h0) -> (forall i, ~ stray_entry h0 i /\ ~ stray_item h0 i) ->
    exists x sec i k, parse_context inp loc rk src = Raise (ParseError x) /\ dangling sec h0 i /\ n_template (hget h0 i) = Some k /\
      er_text x = (if sec then lc_section_not_found loc else lc_non_section_element_not_found loc) (S (n_line (hget h0 i))) k /\
      er_selection x = line_of_node (hget h0 i).
  Proof.
    intros (sec & i & Hd) Hna Hnc Hnl Hns. pose proof (resolve_spec _ _ _ HA) as Hsp.
    destruct (resolve h0 (a_cs st) (a_cn st)) as [h|p h| |] eqn:Hr.
    - exfalso. now apply (rs_found _ _ Hsp sec i).
    - destruct (fault_same _ _ Hr) as (Hce & Hwf & Hst).
      assert (forall j m sec', copies sec' h0 j m -> n_template (hget h j) = Some m /\ 0 < j < length h /\ n_line (hget h j) = n_line (hget h0 j)) as K.
      { intros j m sec' Hc. pose proof (copy_in_heap _ _ _ Hc) as Hj. destruct Hc as (_ & _ & Hm). destruct Hst as [Hl Hst].
        destruct (text_fields _ _ (Hst j)) as (F1 & _ & _ & _ & _ & _ & _ & _ & _ & _ & _ & F2 & _). rewrite F1, F2, Hl. auto. }
      destruct (copy_fault_raised _ _ Hr) as [(x & Hx & Hpe)|(e & prev & -> & He & Hc & _)]; [|exfalso; eapply (Hnc true e), chain_cycle; eassumption].
      destruct Hce as [c f e Ham|c (k & Hc & Hc')|c (k & Hc & Hc')|sec' e prev He Hc|y Hy|y Hy].
      + exfalso. exact (Hna c f e Ham).
      + destruct (K _ _ _ Hc) as (K1 & K2 & K3). apply (node_error_is _ Hwf) in Hpe as [P1 P2]; [|exact K2]. unfold tpl in P1. cbn [c_heap] in *. rewrite K1, K3 in P1. cbn in P1.
        exists x, false, c, k. split; [assumption|]. split; [exists k; auto|]. split; [apply Hc|]. split; [congruence|]. rewrite P2. now apply same_line.
      + destruct (K _ _ _ Hc) as (K1 & K2 & K3). apply (node_error_is _ Hwf) in Hpe as [P1 P2]; [|exact K2]. unfold tpl in P1. cbn [c_heap] in *. rewrite K1, K3 in P1. cbn in P1.
        exists x, true, c, k. split; [assumption|]. split; [exists k; auto|]. split; [apply Hc|]. split; [congruence|]. rewrite P2. now apply same_line.
      + exfalso. eapply Hnc, chain_cycle; eassumption.
      + destruct (Hns y); contradiction.
      + destruct (Hns y); contradiction.
    - exfalso. destruct Hsp as [H|H]; now apply Hnl in H.
    - destruct Hsp.
  Qed.

  Lemma cycle_reported : (exists sec i, on_cycle sec h0 i) -> (forall c f e, ~ ambiguous h0 c f e) ->
    (forall sec i, ~ dangling sec h0 i) -> (forall i, ~ stray_entry h0 i /\ ~ stray_item h0 i) ->
    (forall i, on_cycle true h0 i -> n_template (hget h0 i) <> None) ->
    exists x sec i k r, parse_context inp loc rk src = Raise (ParseError x) /\ on_cycle sec h0 i /\ n_template (hget h0 i) = Some k /\
      er_text x = lc_cyclic_dependency loc (S (n_line (hget h0 i))) k /\ rget (n_ranges (hget h0 i)) R_template = Some r /\
      er_selection x = MkSel (node_cursor (hget h0 i) (fst r)) (node_cursor (hget h0 i) (snd r)).
  Proof.
    intros (sec & i & Hd) Hna Hnd Hns Hco. pose proof (resolve_spec _ _ _ HA) as Hsp.
    destruct (resolve h0 (a_cs st) (a_cn st)) as [h|p h| |] eqn:Hr.
    - exfalso. now apply (rs_acyclic _ _ Hsp sec i).
    - destruct (fault_same _ _ Hr) as (Hce & Hwf & Hst).
      destruct (copy_fault_raised _ _ Hr) as [(x & Hx & Hpe)|(e & prev & -> & He & Hc & Hn & _)]; [|exfalso; apply (Hco e); [eapply chain_cycle; eassumption|assumption]].
      destruct Hce as [c f e Ham|c Hc|c Hc|sec' e prev He Hc|y Hy|y Hy].
      + exfalso. exact (Hna c f e Ham).
      + exfalso. eapply Hnd; eassumption.
      + exfalso. eapply Hnd; eassumption.
      + cbn [parse_error] in Hpe. apply (cyclic_is _ Hwf) in Hpe as (d & t & Hdd & D1 & D2 & r & D3 & D4); [|assumption|].
        * cbn [c_heap c_locale] in *. destruct Hst as [Hl Hst]. rewrite (same_cursor h) in D4 by (split; assumption). rewrite (same_cursor h) in D4 by (split; assumption).
          destruct (text_fields _ _ (Hst d)) as (F1 & F0 & _ & _ & _ & _ & _ & _ & _ & _ & _ & F2 & _).
          rewrite F1 in D2. rewrite F2 in D1. rewrite F0 in D3. exists x, sec', d, t, r. split; [assumption|]. split; [|auto].
          destruct Hdd as [->| ->]; [eapply chain_cycle; eassumption|eapply chain_last_cycle; eassumption].
        * cbn [c_heap]. destruct Hst as [-> _]. now apply (chain_in_heap sec' prev e).
      + destruct (Hns y); contradiction.
      + destruct (Hns y); contradiction.
    - exfalso. destruct Hsp as [(a & b & _ & H)|(a & b & _ & H)]; now apply Hnd in H.
    - destruct Hsp.
  Qed.

  Lemma faults_fail c : (exists sec i, on_cycle sec h0 i \/ dangling sec h0 i) -> parse_context inp loc rk src <> Ok c.
  Proof.
    intros (sec & i & Hc) H. apply parse_ok in H as (st' & lc' & h & Ha' & Hr & _). rewrite Ha in Ha'. injection Ha' as <- <-.
    pose proof (resolve_spec _ _ _ HA) as Hsp. rewrite Hr in Hsp. destruct Hc as [Hc|Hc]; [now apply (rs_acyclic _ _ Hsp) in Hc|now apply (rs_found _ _ Hsp) in Hc].
  Qed.

  (** errors about copies are about actual faults *)
  Lemma copy_faults_real p h meta lc' : fault inp p h meta lc' ->
    match p with
    | PCyclic e prev => exists sec, on_cycle sec h0 e
    | PTwoTemplates c f e => ambiguous h0 c f e
    | PNonSectionNotFound c => dangling false h0 c
    | PSectionNotFound c => dangling true h0 c
    | PMissingFieldsetForEntryNode x => stray_entry h0 x
    | PMissingListForItemNode x => stray_item h0 x
    | _ => False
    end.
  Proof.
    intro Hf. inversion Hf as [e st' ? H|e st' ? ? H1 H2]; subst; rewrite Ha in *; [discriminate|]. injection H1 as <- <-.
    destruct (fault_same _ _ H2) as (Hce & _). destruct Hce; auto. exists sec. eapply chain_cycle; eassumption.
  Qed.
End Faults.

Lemma line_errors inp loc rk src e st lc : rk <> TerminalReporter ->
  analyze inp = AErr e st lc -> exists x, parse_context inp loc rk src = Raise (ParseError x).
Proof.
  intros Hk Ha. destruct (analysis_prints inp loc rk src e st lc Ha) as [[x Hx]|[Hx _]]; [|contradiction].
  exists x. apply parse_raise. left. exists e, (a_heap st), (a_meta st), lc. split; [now constructor|]. now rewrite Hx.
Qed.
Lemma labels_do_not_matter inp loc loc' rk src src' :
  match parse_context inp loc rk src, parse_context inp loc' rk src' with
  | Ok c, Ok c' => c' = MkCtx (c_input c) loc' (c_reporter c) src' (c_heap c) (c_meta c) (c_line_count c)
  | Raise (ParseError x), Raise (ParseError y) => er_selection x = er_selection y /\
      exists p h meta lc, fault inp p h meta lc /\ parse_error (MkCtx inp loc rk src h meta lc) p = Ok x /\
        parse_error (MkCtx inp loc' rk src' h meta lc) p = Ok y
  | Raise e, Raise f => e = f
  | _, _ => False
  end.
Proof. exact (parse_blind inp loc loc' rk src src'). Qed.

(** * Concrete documents *)

Definition nodes_of (t : text) : heap := match analyze t with AOk st _ => a_heap st | _ => [] end.
Definition cands (sec : bool) (h : heap) (k : text) : list nat :=
  filter (fun t => (if sec then itype_eqb (n_type (hget h t)) SECTION else
                            match n_type (hget h t) with FIELD | FIELDSET | LIST | MULTILINE_FIELD_BEGIN | EMPTY_ELEMENT => true | _ => false end) &&
                         match n_key (hget h t) with Some k' => text_eqb k' k | None => false end &&
                         match n_template (hget h t) with Some k' => negb (text_eqb k' k) | None => true end) (seq 0 (length h)).
Lemma cand_dec sec h k t : candidate sec h k t <->
  In t (cands sec h k).
Proof. unfold cands.
  rewrite filter_In, in_seq. unfold candidate. rewrite !andb_true_iff.
  assert (of_kind sec (hget h t) <-> (if sec then itype_eqb (n_type (hget h t)) SECTION else
            match n_type (hget h t) with FIELD | FIELDSET | LIST | MULTILINE_FIELD_BEGIN | EMPTY_ELEMENT => true | _ => false end) = true) as ->.
  { unfold of_kind, is_section, is_element. destruct sec; destruct (n_type (hget h t)); cbn; intuition (try discriminate; try reflexivity). }
  assert (n_key (hget h t) = Some k <-> match n_key (hget h t) with Some k' => text_eqb k' k | None => false end = true) as ->.
  { destruct (n_key (hget h t)) as [k'|]; [|intuition discriminate]. rewrite text_eqb_eq. intuition congruence. }
  assert (n_template (hget h t) <> Some k <-> match n_template (hget h t) with Some k' => negb (text_eqb k' k) | None => true end = true) as ->.
  { destruct (n_template (hget h t)) as [k'|]; [|intuition discriminate]. rewrite negb_true_iff. destruct (text_eqb k' k) eqn:E.
    - apply text_eqb_eq in E. subst. intuition congruence.
    - split; [reflexivity|]. intros _ [= ->]. rewrite (proj2 (text_eqb_eq k k) eq_refl) in E. discriminate. }
  intuition lia.
Qed.

(** all copies of a document *)
Definition all_copies (h : heap) : list (bool * nat * text) :=
  flat_map (fun i => match n_template (hget h i) with
                     | Some k => [(itype_eqb (n_type (hget h i)) SECTION, i, k)]
                     | None => [] end) (seq 0 (length h)).
Lemma all_copies_in sec h i k : copies sec h i k -> In (sec, i, k) (all_copies h).
Proof.
  intros (H1 & H2 & H3). apply in_flat_map. exists i. split; [apply in_seq; lia|]. rewrite H3. left. f_equal. f_equal.
  unfold of_kind, is_section, is_element in H2. destruct sec; [now rewrite H2|]. destruct (n_type (hget h i)); try contradiction; reflexivity.
Qed.
Lemma not_ambiguous h : Forall (fun x : bool * nat * text => let '(sec, i, k) := x in match cands sec h k with
                            | [] | [_] => True | _ => False end) (all_copies h) -> forall c f e, ~ ambiguous h c f e.
Proof.
  intros H c f e (sec & k & H1 & H2 & H3 & H4). apply all_copies_in in H1. rewrite Forall_forall in H. specialize (H _ H1). cbn in H.
  apply cand_dec in H2, H3. destruct (cands _ _ _) as [|x [|y l]]; [destruct H2| |contradiction]. destruct H2 as [->|[]], H3 as [->|[]]. now apply H4.
Qed.
Ltac one_of H := vm_compute in H; repeat (destruct H as [H|H]; [first [discriminate H|injection H; intros; subst|subst]|]); try contradiction.

Definition c20_doc : text := U "x: 1
a < b".
Definition c20_heap : heap := Eval vm_compute in nodes_of c20_doc.
Lemma c20_hypotheses :
  (exists sec i, dangling sec (nodes_of c20_doc) i) /\
  (forall c f e, ~ ambiguous (nodes_of c20_doc) c f e) /\ (forall sec i, ~ on_cycle sec (nodes_of c20_doc) i) /\
  (forall sec, ~ leads_to_dangling sec (nodes_of c20_doc)) /\
  (forall i, ~ stray_entry (nodes_of c20_doc) i /\ ~ stray_item (nodes_of c20_doc) i).
Proof.
  assert (nodes_of c20_doc = c20_heap) as -> by (vm_compute; reflexivity).
  assert (forall sec i j, ~ template_is sec (c20_heap) i j) as Hno.
  { intros sec i j (k & H1 & H2 & _). apply all_copies_in in H1. apply cand_dec in H2. one_of H1; vm_compute in H2; exact H2. }
  assert (forall sec i j, ~ depends sec (c20_heap) i j) as Hnd.
  { intros sec i j [H|(_ & H & _)]; [now apply Hno in H|]. do 3 (destruct i as [|i]; [discriminate H|]). unfold hget in H. rewrite nth_overflow in H by (vm_compute; lia). discriminate H. }
  assert (forall sec i j, ~ clos_trans nat (depends sec (c20_heap)) i j) as Hnt by (intros sec i j H; induction H; auto; eapply Hnd; eassumption).
  split; [|split; [|split; [|split]]].
  - exists false, 2, (U "b"). split; [vm_compute; repeat split; lia|]. intros t Ht. apply cand_dec in Ht. exact Ht.
  - apply not_ambiguous. repeat constructor.
  - intros sec i. apply Hnt.
  - intros sec (i & j & H & _). now apply Hnt in H.
  - intro i. split; intros (e & t & ty & H & _); now apply Hno in H.
Qed.

Definition c21_doc : text := U "a < b
b < c
c < a
x:
- item".
Definition c21_heap : heap := Eval vm_compute in nodes_of c21_doc.
Lemma c21_hypotheses :
  (exists sec i, on_cycle sec (nodes_of c21_doc) i) /\
  (forall c f e, ~ ambiguous (nodes_of c21_doc) c f e) /\ (forall sec i, ~ dangling sec (nodes_of c21_doc) i) /\
  (forall i, ~ stray_entry (nodes_of c21_doc) i /\ ~ stray_item (nodes_of c21_doc) i) /\
  (forall i, on_cycle true (nodes_of c21_doc) i -> n_template (hget (nodes_of c21_doc) i) <> None).
Proof.
  assert (nodes_of c21_doc = c21_heap) as -> by (vm_compute; reflexivity).
  split; [|split; [|split; [|split]]].
  - assert (forall i k t, copies false (c21_heap) i k -> candidate false (c21_heap) k t -> depends false (c21_heap) i t) as K.
    { intros i k t H1 H2. left. exists k. split; [assumption|]. split; [assumption|]. intros t' H3. apply all_copies_in in H1.
      apply cand_dec in H2, H3. one_of H1; one_of H2; one_of H3; reflexivity. }
    exists false, 1. eapply t_trans; [apply t_step, (K 1 (U "b") 2)|eapply t_trans; [apply t_step, (K 2 (U "c") 3)|apply t_step, (K 3 (U "a") 1)]];
      vm_compute; repeat split; try lia; discriminate.
  - apply not_ambiguous. repeat constructor.
  - intros sec i (k & H1 & H2). apply all_copies_in in H1. one_of H1; [apply (H2 2)|apply (H2 3)|apply (H2 1)]; apply cand_dec; vm_compute; auto.
  - intro i. split; intros (e & t & ty & (k & H & _) & Hty & _); apply all_copies_in in H; one_of H; discriminate Hty.
  - intros i H. exfalso. unfold on_cycle in H. apply clos_trans_t1n in H.
    assert (forall j, ~ depends true (c21_heap) i j) as K.
    { intros j [(k & H1 & _)|(_ & H1 & _)]; [apply all_copies_in in H1; one_of H1|].
      do 6 (destruct i as [|i]; [discriminate H1|]). unfold hget in H1. rewrite nth_overflow in H1 by (vm_compute; lia). discriminate H1. }
    inversion H; subst; eapply K; eassumption.
Qed.

Definition dng_doc : text := U "a < b
b < c".
Definition dng_heap : heap := Eval vm_compute in nodes_of dng_doc.
Lemma dangling_not_reported : exists inp st lc i, analyze inp = AOk st lc /\ dangling false (a_heap st) i /\
  parse_context inp en TextReporter None = Raise KeyError.
Proof.
  exists dng_doc. destruct (analyze dng_doc) as [st lc| | |] eqn:E; try (vm_compute in E; discriminate).
  exists st, lc, 2. split; [reflexivity|]. assert (a_heap st = dng_heap) as ->.
  { transitivity (nodes_of dng_doc); [unfold nodes_of; now rewrite E|vm_compute; reflexivity]. }
  split; [|vm_compute; reflexivity].
  exists (U "c"). split; [vm_compute; repeat split; lia|]. intros t Ht. apply cand_dec in Ht. exact Ht.
Qed.
Definition cyc_doc : text := U "# q < x
# p
## x
### c < p".
Definition cyc_heap : heap := Eval vm_compute in nodes_of cyc_doc.
Lemma cycle_not_reported : exists inp st lc i, analyze inp = AOk st lc /\ on_cycle true (a_heap st) i /\
  parse_context inp en TextReporter None = Raise UnboundLocalError.
Proof.
  exists cyc_doc. destruct (analyze cyc_doc) as [st lc| | |] eqn:E; try (vm_compute in E; discriminate).
  exists st, lc, 2. split; [reflexivity|]. assert (a_heap st = cyc_heap) as ->.
  { transitivity (nodes_of cyc_doc); [unfold nodes_of; now rewrite E|vm_compute; reflexivity]. }
  split; [|vm_compute; reflexivity].
  assert (copies true (cyc_heap) 4 (U "p")) as Hc by (vm_compute; repeat split; lia).
  eapply t_trans; [|eapply t_trans]; apply t_step.
  - right. split; [reflexivity|]. split; [reflexivity|]. instantiate (1 := 3). split; [vm_compute; lia|]. split; [reflexivity|]. split; [reflexivity|].
    right. exists 4, (U "p"). split; [now apply enc_parent|assumption].
  - right. split; [reflexivity|]. split; [reflexivity|]. instantiate (1 := 4). split; [vm_compute; lia|]. split; [reflexivity|]. split; [reflexivity|].
    left. exists (U "p"). assumption.
  - left. exists (U "p"). split; [assumption|]. split; [apply cand_dec; vm_compute; auto|]. intros t Ht. apply cand_dec in Ht. one_of Ht. reflexivity.
Qed.
