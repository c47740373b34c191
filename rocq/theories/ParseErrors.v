(** ParseErrors: building the error of a failed parse succeeds. *)
From Verif Require Import Base Types Messages Analyzer HeapFacts AnalyzerInv SpecText SpecTree AnalyzerText AnalyzerTree
  Reporter Errors ReporterFacts ReporterTags.

Section Build.
  Context (c : ctx) (Hwf : WF c).
  Local Notation h := (c_heap c).
  Local Notation lc := (c_line_count c).
  Let HS := wf_shape _ Hwf.

  Lemma prints_build t s sel : (exists x, t = Ok x) -> prints c s -> (exists x, sel = Ok x) -> prints c (build t s sel).
  Proof.
    intros [x ->] [[y ->]|[Hk ->]] [z ->]; unfold build; cbn [bind]; [left; eexists; reflexivity|right; auto].
  Qed.
  Lemma prints_ok_bind {A B} (x : res A) (f : A -> res B) P : ok_with x P -> (forall a, P a -> prints c (f a)) -> prints c (bind x f).
  Proof. intros (a & -> & Ha) Hf. cbn [bind]. auto. Qed.
  Lemma prints_report f : (forall r, rep c r -> ok_with (f r) (rep c)) -> prints c (report c f).
  Proof.
    intro Hf. unfold report. eapply prints_ok_bind; [apply rep_new; exact Hwf|]. intros r Hr.
    eapply prints_ok_bind; [exact (Hf r Hr)|]. intros r' Hr'. now apply snippet_out.
  Qed.

  Lemma cursor_ok i r p : rget (i_ranges i) r <> None -> rget (i_ranges i) R_line <> None -> i_line i <> None -> exists x, cursor i r p = Ok x.
  Proof.
    intros H1 H2 H3. unfold cursor, key_or. destruct (rget (i_ranges i) r); [|congruence]. destruct (rget (i_ranges i) R_line); [|congruence].
    destruct (i_line i); [|congruence]. cbn [bind]. eexists; reflexivity.
  Qed.
  Lemma selection_ok i r p i' r' p' : rget (i_ranges i) r <> None -> rget (i_ranges i) R_line <> None -> i_line i <> None ->
    rget (i_ranges i') r' <> None -> rget (i_ranges i') R_line <> None -> i_line i' <> None -> exists x, selection i r p i' r' p' = Ok x.
  Proof.
    intros. unfold selection. destruct (cursor_ok i r p) as [x ->]; try assumption. destruct (cursor_ok i' r' p') as [y ->]; try assumption.
    cbn [bind]. eexists; reflexivity.
  Qed.
  Lemma leaf_cursor l p : leaf_ok lc l -> exists x, cursor (leaf_ins l) R_line p = Ok x.
  Proof. intros [_ H]. apply cursor_ok; cbn; [assumption|assumption|discriminate]. Qed.
  Lemma select_leaf l : leaf_ok lc l -> exists x, select_line (leaf_ins l) = Ok x.
  Proof. intros [_ H]. apply selection_ok; cbn; try assumption; discriminate. Qed.
  Lemma node_ins_line i : 0 < i < length h -> i_line (node_ins (hget h i)) = Some (n_line (hget h i)).
  Proof.
    intro Hi. pose proof (in_tree_type c Hwf i Hi) as Ht. unfold node_ins. cbn.
    destruct (n_type (hget h i)); try reflexivity. congruence.
  Qed.
  Lemma select_node i r : 0 < i < length h -> rget (n_ranges (hget h i)) r <> None -> exists x, select_range (node_ins (hget h i)) r = Ok x.
  Proof.
    intros Hi Hr. destruct (wf_node _ Hwf i Hi) as (_ & Hl & _). unfold select_range.
    apply selection_ok; try rewrite node_ins_line by assumption; cbn; try assumption; discriminate.
  Qed.
  Lemma select_node_line i : 0 < i < length h -> exists x, select_line (node_ins (hget h i)) = Ok x.
  Proof. intro Hi. apply select_node; [assumption|]. now destruct (wf_node _ Hwf i Hi) as (_ & Hl & _). Qed.
  Lemma human_line_ok i : 0 < i < length h -> human_line c i = Ok (S (n_line (hget h i))).
  Proof.
    intro Hi. unfold human_line. rewrite (no_document c i) by (now apply in_tree_type). cbn [bind]. unfold human. now rewrite Nat.add_1_r.
  Qed.

  Lemma prints_leaf_error msg l : leaf_ok lc l -> prints c (leaf_error c msg l).
  Proof.
    intro Hl. apply prints_build; [eexists; reflexivity| |now apply select_leaf].
    apply prints_report. intros r Hr. apply rep_report_leaf; [assumption|apply Hl].
  Qed.
  Lemma prints_invalid_line l : leaf_ok lc l -> prints c (invalid_line c l).
  Proof.
    intro Hl. unfold invalid_line. destruct (rget (l_ranges l) R_line) as [lr|] eqn:E; [|destruct Hl; congruence].
    cbn [key_or bind]. match goal with |- context [match ?x with Some _ => _ | None => _ end] => destruct x end.
    - apply prints_build; [eexists; reflexivity| |].
      + apply prints_report. intros r Hr. apply rep_report_leaf; [assumption|apply Hl].
      + rewrite E. cbn [key_or bind]. destruct (leaf_cursor l END Hl) as [x ->]. cbn [bind]. eexists; reflexivity.
    - apply prints_build; [eexists; reflexivity| |now apply select_leaf].
      apply prints_report. intros r Hr. apply rep_report_leaf; [assumption|apply Hl].
  Qed.
  Lemma prints_node_error msg i : 0 < i < length h -> (forall l, exists x, msg l = Ok x) -> prints c (node_error c msg i).
  Proof.
    intros Hi Hm. apply prints_build.
    - rewrite human_line_ok by assumption. cbn [bind]. apply Hm.
    - apply prints_report. intros r Hr. now apply (rep_mark_node c Hwf).
    - now apply select_node_line.
  Qed.
  Lemma prints_layer_skip l s : leaf_ok lc l -> s < length h -> prints c (section_hierarchy_layer_skip c l s).
  Proof.
    intros Hl Hs. unfold section_hierarchy_layer_skip. eapply prints_ok_bind; [apply rep_new; exact Hwf|]. intros r Hr.
    eapply prints_ok_bind; [apply rep_report_leaf; [exact Hr|apply Hl]|]. intros r1 H1.
    eapply prints_ok_bind with (P := rep c).
    - destruct (itype_eqb (n_type (hget h s)) DOCUMENT) eqn:E; [now apply ok_ret|]. apply (rep_mark_node c Hwf); [assumption|].
      split; [|assumption]. destruct s; [|lia]. pose proof (s_doc _ (sh_s _ HS)) as Hd. unfold ncls in Hd.
      destruct (n_type (hget h 0)); cbn in E; discriminate.
    - intros r2 H2. apply prints_build; [eexists; reflexivity|now apply snippet_out|now apply select_leaf].
  Qed.
  Lemma tpl_ok i t : n_template (hget h i) = Some t -> tpl c i = Ok t.
  Proof. intro H. unfold tpl. now rewrite H. Qed.
  Lemma prints_two_templates cp a b t : 0 < cp < length h -> 0 < a < length h -> 0 < b < length h -> n_template (hget h cp) = Some t ->
    prints c (two_or_more_templates_found c cp a b).
  Proof.
    intros H1 H2 H3 Ht. apply prints_build.
    - rewrite (tpl_ok _ _ Ht). eexists; reflexivity.
    - apply prints_report. intros r Hr. eapply ok_bind; [now apply (rep_mark_node c Hwf)|]. intros r1 R1.
      eapply ok_bind; [now apply (rep_mark_node c Hwf)|]. intros r2 R2. now apply (rep_mark_node c Hwf).
    - now apply select_node_line.
  Qed.
  Lemma prints_unterminated e k : 0 < e < length h -> n_type (hget h e) = MULTILINE_FIELD_BEGIN -> n_key (hget h e) = Some k ->
    prints c (unterminated_multiline_field c e).
  Proof.
    intros He Ht Hk. unfold unterminated_multiline_field. eapply prints_ok_bind; [apply rep_new; exact Hwf|]. intros r Hr.
    eapply prints_ok_bind.
    - destruct (rep_element c Hwf r e Hr He) as [[H _]|[_ Hb]]; [exact H|]. apply breaks_inv in Hb as [Hb _]. congruence.
    - intros r1 H1. eapply prints_ok_bind with (P := rep c).
      + apply ok_foldM; [assumption|]. intros r2 l H2 Hl. rewrite (no_document c e) by (now apply in_tree_type). cbn [bind].
        destruct (Nat.ltb _ _); [|now apply ok_ret]. apply rep_mark; [assumption|]. pose proof (wf_meta _ Hwf) as HF.
        rewrite Forall_forall in HF. now apply HF.
      + intros r2 H2. apply prints_build; [|now apply snippet_out|now apply select_node_line].
        unfold key. rewrite Hk. cbn [key_or bind]. rewrite human_line_ok by assumption. eexists; reflexivity.
  Qed.

  Lemma index_of_split x l : In x l -> exists l1, l = l1 ++ skipn (index_of x l) l /\ exists l2, skipn (index_of x l) l = x :: l2.
  Proof.
    induction l as [|y l IH]; [intros []|]. intro H. cbn [index_of]. destruct (Nat.eqb_spec x y) as [->|Hne].
    - cbn [skipn]. exists []. split; [reflexivity|eauto].
    - destruct H as [H|H]; [congruence|]. destruct (IH H) as (l1 & H1 & l2 & H2). cbn [skipn]. exists (y :: l1).
      cbn [app]. split; [now f_equal|eauto].
  Qed.
  Lemma last_of_app {A} (l : list A) x : last_of (l ++ [x]) = Ok x.
  Proof. unfold last_of. now rewrite rev_app_distr. Qed.
  Lemma last_of_last {A} (l : list A) d : l <> [] -> last_of l = Ok (last l d).
  Proof. intro H. destruct l as [|x l _] using rev_ind; [congruence|]. now rewrite last_of_app, last_last. Qed.

  (** the cyclic dependency error, unless neither end of the cycle is a copy *)
  Lemma prints_cyclic e prev : In e prev -> (forall x, In x prev -> 0 < x < length h) ->
    (n_template (hget h e) = None /\ n_template (hget h (last prev 0)) = None /\ cyclic_dependency c e prev = Raise UnboundLocalError) \/
    (~ (n_template (hget h e) = None /\ n_template (hget h (last prev 0)) = None) /\ prints c (cyclic_dependency c e prev)).
  Proof.
    intros He Hp. unfold cyclic_dependency. destruct (index_of_split e prev He) as (l1 & Hl1 & l2 & Hl2). rewrite Hl2 in Hl1 |- *.
    rewrite (last_of_last (e :: l2) 0) by discriminate. cbn [bind].
    assert (last (e :: l2) 0 = last prev 0) as Hlast.
    { rewrite Hl1. assert (e :: l2 <> []) as Hne by discriminate. revert Hne. generalize (e :: l2) as m. clear. intros m Hm.
      induction l1 as [|x l1 IH]; [reflexivity|]. cbn [app]. rewrite IH. destruct (l1 ++ m) eqn:E; [|reflexivity]. destruct l1, m; try discriminate. congruence. }
    rewrite Hlast. set (lst := last prev 0) in *. clearbody lst.
    assert (0 < e < length h) as He' by auto. assert (In lst prev) as Hin.
    { rewrite Hl1. apply in_or_app. right. rewrite <- Hlast. destruct l2 as [|y l2 _] using rev_ind; [now left|].
      rewrite app_comm_cons, last_last. right. apply in_or_app. right. now left. }
    assert (0 < lst < length h) as Hlst by auto.
    assert (forall cp, 0 < cp < length h -> n_template (hget h cp) <> None -> prints c
      (do r <- new_reporter c;
       do r <- report_line r cp;
       do r <- foldM (fun r e => if Nat.eqb e cp then Ok r else indicate_line r e) (e :: l2) r;
       build (do l <- human_line c cp; do t <- tpl c cp; Ok (lc_cyclic_dependency (c_locale c) l t)) (snippet r) (select_template c cp))) as K.
    { intros cp Hcp Ht. eapply prints_ok_bind; [apply rep_new; exact Hwf|]. intros r Hr.
      eapply prints_ok_bind; [apply (rep_mark_node c Hwf); [exact Hr|exact Hcp]|]. intros r1 H1.
      eapply prints_ok_bind with (P := rep c).
      - apply ok_foldM; [assumption|]. intros r2 x H2 Hx. destruct (Nat.eqb x cp); [now apply ok_ret|]. apply (rep_mark_node c Hwf); auto.
        apply Hp. rewrite Hl1. apply in_or_app. now right.
      - intros r2 H2. destruct (n_template (hget h cp)) as [t|] eqn:Et; [|congruence]. apply prints_build; [|now apply snippet_out|].
        + rewrite human_line_ok by assumption. cbn [bind]. rewrite (tpl_ok _ _ Et). eexists; reflexivity.
        + apply select_node; [assumption|]. destruct (wf_text _ Hwf cp Hcp) as (_ & _ & _ & _ & Hr2 & _). rewrite Et in Hr2.
          destruct (rget (n_ranges (hget h cp)) R_template); [discriminate|]. discriminate. }
    destruct (n_template (hget h lst)) as [t|] eqn:E1; cbn [opt_is bind].
    - right. split; [intros [_ ?]; discriminate|]. apply K; [assumption|congruence].
    - destruct (n_template (hget h e)) as [t|] eqn:E2; cbn [opt_is bind].
      + right. split; [intros [? _]; discriminate|]. apply K; [assumption|congruence].
      + left. auto.
  Qed.
End Build.
