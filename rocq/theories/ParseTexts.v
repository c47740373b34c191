(** ParseTexts: messages and selections of parse errors. *)
From Coq Require Import Relations.
From Verif Require Import Base Regex Grammar Types Scan Messages Analyzer TokenStep HeapFacts SpecRun AnalyzerInv AnalyzerLoop SpecText AnalyzerText
  SpecTree AnalyzerTree AnalyzerFinal AnalyzerBounds AnalyzerCopies Resolver SpecResolve ResolverIndex ResolverFields ResolverSections
  ResolverFinal ResolverComments Reporter Errors Context ReporterFacts ReporterTags ParseErrors ParseContext ParseOutcome LocaleFree SpecErrors.

Section Texts.
  Context (c : ctx) (Hwf : WF c).
  Local Notation h := (c_heap c).
  Local Notation M := (c_locale c).

  Lemma line_in rs : rget rs R_line <> None -> rget rs R_line = Some (line_range rs).
  Proof. unfold line_range. destruct (rget rs R_line); congruence. Qed.

  Lemma select_leaf_is l s : leaf_ok (c_line_count c) l -> select_line (leaf_ins l) = Ok s -> s = line_of_leaf l.
  Proof.
    intros [_ H]. apply line_in in H. unfold select_line, select_range, selection, cursor. cbn [leaf_ins i_ranges i_line]. rewrite H. cbn [key_or bind].
    intros [= <-]. reflexivity.
  Qed.
  Lemma select_node_is e s : 0 < e < length h -> select_line (node_ins (hget h e)) = Ok s -> s = line_of_node (hget h e).
  Proof.
    intros He. destruct (wf_node _ Hwf e He) as (_ & H & _). apply line_in in H. unfold select_line, select_range, selection, cursor.
    rewrite (node_ins_line c Hwf e He). cbn [node_ins i_ranges]. rewrite H. cbn [key_or bind]. intros [= <-]. reflexivity.
  Qed.
  Lemma select_template_is e s : 0 < e < length h -> select_template c e = Ok s ->
    exists t, rget (n_ranges (hget h e)) R_template = Some t /\ s = MkSel (node_cursor (hget h e) (fst t)) (node_cursor (hget h e) (snd t)).
  Proof.
    intros He. destruct (wf_node _ Hwf e He) as (_ & H & _). apply line_in in H. unfold select_template, select_range, selection, cursor.
    rewrite (node_ins_line c Hwf e He). cbn [node_ins i_ranges]. destruct (rget (n_ranges (hget h e)) R_template) as [t|]; [|discriminate].
    rewrite H. cbn [key_or bind]. intros [= <-]. exists t. auto.
  Qed.

  Lemma leaf_error_is msg l x : leaf_ok (c_line_count c) l -> leaf_error c msg l = Ok x -> er_text x = msg (S (l_line l)) /\ er_selection x = line_of_leaf l.
  Proof.
    intros Hl H. unfold leaf_error in H. apply build_ok in H as (H1 & _ & H3). apply select_leaf_is in H3; [|assumption]. unfold human in H1. rewrite Nat.add_1_r in H1.
    split; [congruence|assumption].
  Qed.
  Lemma node_error_is msg e x : 0 < e < length h -> node_error c msg e = Ok x ->
    msg (S (n_line (hget h e))) = Ok (er_text x) /\ er_selection x = line_of_node (hget h e).
  Proof.
    intros He H. unfold node_error, two_or_more_templates_found in H. apply build_ok in H as (H1 & _ & H3). rewrite (human_line_ok c Hwf e He) in H1. split; [exact H1|]. now apply select_node_is in H3.
  Qed.
  Lemma two_templates_is cp f s x : 0 < cp < length h -> two_or_more_templates_found c cp f s = Ok x ->
    exists t, n_template (hget h cp) = Some t /\ er_text x = lc_two_or_more_templates_found M t /\ er_selection x = line_of_node (hget h cp).
  Proof.
    intros He H. unfold node_error, two_or_more_templates_found in H. apply build_ok in H as (H1 & _ & H3). unfold tpl in H1. destruct (n_template (hget h cp)) as [t|] eqn:Et; [|discriminate]. cbn in H1.
    exists t. split; [reflexivity|]. split; [congruence|]. now apply select_node_is in H3.
  Qed.
  Lemma cyclic_is e prev x : In e prev -> (forall y, In y prev -> 0 < y < length h) -> cyclic_dependency c e prev = Ok x ->
    exists d t, (d = e \/ d = last prev 0) /\ n_template (hget h d) = Some t /\
      er_text x = lc_cyclic_dependency M (S (n_line (hget h d))) t /\ 
      exists r, rget (n_ranges (hget h d)) R_template = Some r /\
        er_selection x = MkSel (node_cursor (hget h d) (fst r)) (node_cursor (hget h d) (snd r)).
  Proof.
    intros He Hp. unfold cyclic_dependency. destruct (index_of_split e prev He) as (l1 & Hl1 & l2 & Hl2). rewrite Hl2 in Hl1 |- *.
    rewrite (last_of_last (e :: l2) 0) by discriminate. cbn [bind].
    assert (last (e :: l2) 0 = last prev 0) as Hlast.
    { rewrite Hl1. clear. induction l1 as [|y l1 IH]; [reflexivity|]. cbn [app]. rewrite IH. destruct (l1 ++ e :: l2) eqn:E; [destruct l1; discriminate|reflexivity]. }
    rewrite Hlast. set (z := last prev 0) in *.
    assert (0 < z < length h) as Hz.
    { apply Hp. destruct prev as [|y l _] using rev_ind; [destruct He|]. unfold z. rewrite last_last. apply in_or_app. right. now left. }
    intro H. apply bind_ok in H as (d & Hd & H). apply bind_ok in H as (r & _ & H). apply bind_ok in H as (r1 & _ & H). apply bind_ok in H as (r2 & _ & H).
    apply build_ok in H as (H1 & _ & H3).
    assert (0 < d < length h /\ (d = e \/ d = z)) as [Hdl Hdz].
    { destruct (opt_is _); [injection Hd as <-; auto|]. destruct (opt_is _); [injection Hd as <-; auto|discriminate]. }
    rewrite (human_line_ok c Hwf d Hdl) in H1. cbn [bind] in H1. unfold tpl in H1. destruct (n_template (hget h d)) as [t|] eqn:Et; [|discriminate]. cbn in H1.
    exists d, t. split; [assumption|]. split; [assumption|]. split; [congruence|]. now apply select_template_is in H3.
  Qed.
End Texts.

(** the labels of a parse do not influence its outcome *)
Lemma parse_blind inp loc loc' rk src src' :
  match parse_context inp loc rk src, parse_context inp loc' rk src' with
  | Ok c, Ok c' => c' = relabel loc' src' c
  | Raise (ParseError x), Raise (ParseError y) => er_selection x = er_selection y /\
      exists p h meta lc, fault inp p h meta lc /\ parse_error (MkCtx inp loc rk src h meta lc) p = Ok x /\
        parse_error (MkCtx inp loc' rk src' h meta lc) p = Ok y
  | Raise e, Raise f => e = f
  | _, _ => False
  end.
Proof.
  unfold parse_context. set (fail := fun (c : ctx) (e : perr) => match parse_error c e with Ok x => Raise (ParseError x) | Raise x => Raise x end : res ctx).
  assert (forall h meta lc p, fault inp p h meta lc ->
    match fail (MkCtx inp loc rk src h meta lc) p, fail (MkCtx inp loc' rk src' h meta lc) p with
    | Ok c, Ok c' => c' = relabel loc' src' c
    | Raise (ParseError x), Raise (ParseError y) => er_selection x = er_selection y /\
      exists p h meta lc, fault inp p h meta lc /\ parse_error (MkCtx inp loc rk src h meta lc) p = Ok x /\
        parse_error (MkCtx inp loc' rk src' h meta lc) p = Ok y
    | Raise e, Raise f => e = f
    | _, _ => False
    end) as K.
  { intros h meta lc p Hf. unfold fail. pose proof (parse_error_blind loc' src' (MkCtx inp loc rk src h meta lc) p) as H.
    change (relabel loc' src' (MkCtx inp loc rk src h meta lc)) with (MkCtx inp loc' rk src' h meta lc) in H.
    destruct (parse_error (MkCtx inp loc _ _ _ _ _) p) as [x|x] eqn:E1, (parse_error (MkCtx inp loc' _ _ _ _ _) p) as [y|y] eqn:E2;
      cbn in H; try contradiction; [split; [exact H|]; exists p, h, meta, lc; auto|]. subst y.
    assert (forall z, x <> ParseError z) as Hz.
    { intros z ->. pose proof (fault_prints inp loc rk src p h meta lc Hf) as [(? & ? & ? & _ & _ & _ & _ & _ & _ & G)|[[? G]|[_ G]]]; rewrite E1 in G; discriminate. }
    destruct x; try reflexivity. now destruct (Hz e). }
  destruct (analyze inp) as [st lc|p st lc| |] eqn:Ea.
  - destruct (a_cs st) as [|s cs] eqn:Es; [destruct (a_cn st) as [|s cn] eqn:En|]; [reflexivity|..];
      (destruct (resolve _ _ _) as [h|p h| |] eqn:Er; [reflexivity|apply K; econstructor; [exact Ea|rewrite ?Es, ?En; exact Er]|reflexivity|reflexivity]).
  - apply K. now constructor.
  - reflexivity.
  - reflexivity.
Qed.
