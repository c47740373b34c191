(** AppendRun: the analysis of a text, followed by further lines. *)
From Verif Require Import Base Regex Grammar Scan ScanProofs Types Analyzer TokenStep StepProofs ScanFacts HeapFacts AnalyzerInv SpecRun AnalyzerLoop CanonRun CanonProofs AppendScan.

Lemma runs_reach inp st : reach inp st <-> runs inp init_ast st.
Proof.
  split.
  - induction 1 as [|st st' H IH Hi Hs]; [constructor|]. eapply runs_trans; [exact IH|]. econstructor; [exact Hi|exact Hs|constructor].
  - assert (forall a b, runs inp a b -> reach inp a -> reach inp b) as H.
    { induction 1 as [|a b c Hi Hs Hr IH]; [auto|]. intro Ha. apply IH. eapply reach_step; eauto. }
    intro Hr. apply (H _ _ Hr). constructor.
Qed.
Lemma runs_det inp a b c : runs inp a b -> runs inp a c -> runs inp b c \/ runs inp c b.
Proof.
  intro H. revert c. induction H as [a|a a1 b Hi Hs Hr IH]; intros c Hc; [now left|].
  inversion Hc as [|x y z Hi' Hs' Hr']; subst.
  - right. econstructor; eauto.
  - rewrite Hs in Hs'. injection Hs' as <-. now apply IH.
Qed.
Lemma runs_index inp a b : AInv a -> runs inp a b -> AInv b /\ (b = a \/ a_index a < a_index b).
Proof.
  intros Ha H. induction H as [a|a a1 b Hi Hs Hr IH]; [auto|].
  pose proof (step_inv inp a Ha ltac:(lia)) as H. rewrite Hs in H. destruct H as [H1 H2]. destruct (IH H1) as [H3 H4].
  split; [assumption|]. right. destruct H4 as [->|]; lia.
Qed.

Section Append.
  Context (d s : text).
  Local Notation dd := (d ++ nl :: s).

  Lemma dd_length : length dd = length d + S (length s).
  Proof. rewrite app_length. reflexivity. Qed.
  Lemma sub_more x : snd x <= length d -> sub dd x = sub d x.
  Proof.
    intro H. unfold sub, slice. destruct (le_lt_dec (snd x) (fst x)) as [Hl|Hl].
    - now replace (snd x - fst x) with 0 by lia.
    - rewrite skipn_more by lia. rewrite firstn_app, skipn_length. replace (snd x - fst x - (length d - fst x)) with 0 by lia.
      now rewrite firstn_O, app_nil_r.
  Qed.
  Lemma osub_more v lo hi : value_ok d lo hi v -> hi <= length d -> osub dd v = osub d v.
  Proof. destruct v as [x|]; [|reflexivity]. intros [(_ & _ & H) _] Hh. cbn. rewrite sub_more; [reflexivity|lia]. Qed.
  Lemma key_more lo k : key_ok d lo k -> key_hi k <= length d -> sub dd (key_span k) = sub d (key_span k).
  Proof.
    intros H Hh. apply sub_more. destruct k as [x|b x e]; cbn in *; [lia|]. destruct H as (_ & (_ & _ & H1) & (H2 & H3 & H4) & _). lia.
  Qed.

  Lemma find_nl_to_more i stop : stop <= length d -> find_nl_to dd i stop = find_nl_to d i stop.
  Proof. intro H. unfold find_nl_to. change (slice dd i stop) with (sub dd (i, stop)). now rewrite (sub_more (i, stop) H). Qed.
  Lemma ml_lines_more f f' i line stop x : stop <= length d -> f <= f' -> ml_lines d f i line stop = Some x -> ml_lines dd f' i line stop = Some x.
  Proof.
    intro Hs. revert f' i line x. induction f as [|f IH]; intros f' i line x Hf; cbn [ml_lines]; [discriminate|].
    destruct f' as [|f']; [lia|]. cbn [ml_lines]. rewrite find_nl_to_more by assumption.
    destruct (find_nl_to d i stop) as [e|]; [|auto].
    destruct (ml_lines d f (e + 1) (line + 1) stop) as [[ls l']|] eqn:E; [|discriminate].
    apply (IH f') in E; [|lia]. rewrite E. auto.
  Qed.

  Lemma find_nl_in_more r i : find_nl_in (r ++ nl :: s) i = match find_nl_in r i with Some e => Some e | None => Some (i + length r) end.
  Proof.
    revert i. induction r as [|c r IH]; intros i; cbn [find_nl_in app length]; unfold ceq; [rewrite Nat.add_0_r; reflexivity|].
    destruct (N.eqb c nl); [reflexivity|]. rewrite IH. destruct (find_nl_in r (S i)); [reflexivity|]. f_equal. lia.
  Qed.
  Lemma find_nl_more i : i <= length d -> find_nl dd i = match find_nl d i with Some e => Some e | None => Some (length d) end.
  Proof.
    intro H. unfold find_nl. rewrite skipn_more by assumption. rewrite find_nl_in_more, skipn_length.
    destruct (find_nl_in (skipn i d) i); [reflexivity|]. f_equal. lia.
  Qed.
  Lemma find_nl_eol r i : match find_nl_in r i with Some e => e | None => i + length r end = i + length (line_of r).
  Proof.
    revert i. induction r as [|c r IH]; intros i; cbn [find_nl_in]; [reflexivity|]. unfold line_of, not_nl. cbn [takewhile].
    destruct (N.eqb c nl); cbn [negb length]; [lia|]. fold not_nl. fold (line_of r). specialize (IH (S i)). destruct (find_nl_in r (S i)); lia.
  Qed.
  (** the line complained about is the same *)
  Lemma fail_more st st2 i line mk : i <= length d -> a_heap st = a_heap st2 ->
    exists x st' lc st'' lc', fail_at d st i line mk = SErr (mk x) st' lc /\ fail_at dd st2 i line mk = SErr (mk x) st'' lc' /\
      a_heap st' = a_heap st /\ a_heap st'' = a_heap st /\ line_range (l_ranges x) = (i, eol i (skipn i d)) /\ l_line x = line.
  Proof.
    intros Hi Hh. destruct (fail_at_err d st i line mk) as (x & ls & lc & Et & ->). destruct (fail_at_err dd st2 i line mk) as (x' & ls' & lc' & Et' & ->).
    assert (x' = x /\ line_range (l_ranges x) = (i, eol i (skipn i d)) /\ l_line x = line) as (-> & Hx & Hl).
    { cbn [tokenize_error] in Et, Et'. rewrite find_nl_more in Et' by assumption.
      assert (match find_nl d i with Some e => e | None => length d end = eol i (skipn i d)) as Ee.
      { unfold find_nl, eol. replace (length d) with (i + length (skipn i d)) by (rewrite skipn_length; lia). apply find_nl_eol. }
      destruct (find_nl d i) as [e|].
      - destruct (tokenize_error d (length d) (e + 1) (line + 1) false) as [[? ?]|]; [|discriminate]. injection Et as <- _ _.
        destruct (tokenize_error dd _ (e + 1) (line + 1) false) as [[? ?]|]; [|discriminate]. injection Et' as <- _ _.
        split; [reflexivity|]. rewrite <- Ee. split; reflexivity.
      - injection Et as <- _ _. destruct (tokenize_error dd _ (length d + 1) (line + 1) false) as [[? ?]|]; [|discriminate]. injection Et' as <- _ _.
        split; [reflexivity|]. rewrite <- Ee. split; reflexivity. }
    do 5 eexists. split; [reflexivity|]. split; [reflexivity|]. cbn. auto.
  Qed.

  (** ** One step *)

  Definition about_end (e : perr) : Prop := match e with PInvalidLine _ | PUnterminatedMultiline _ => True | _ => False end.
  Definition same_outcome (r r' : sres) : Prop :=
    match r with
    | SOk st => r' = SOk st
    | SErr e st _ => about_end e \/ exists st' lc', r' = SErr e st' lc' /\ a_heap st' = a_heap st
    | _ => True
    end.
  Lemma fail_same st i line mk : i <= length d -> same_outcome (fail_at d st i line mk) (fail_at dd st i line mk).
  Proof.
    intro Hi. destruct (fail_more st st i line mk Hi eq_refl) as (x & st' & lc & st'' & lc' & -> & -> & E1 & E2 & _). right. exists st'', lc'. split; [reflexivity|congruence].
  Qed.
  Lemma same_refl r : same_outcome r r.
  Proof. destruct r; cbn; eauto. Qed.

  Lemma tstep_tok_more st t e : a_index st <= length d -> scan (a_index st) (skipn (a_index st) d) = Some (t, e) ->
    same_outcome (tstep_tok d st t e) (tstep_tok dd st t e).
  Proof.
    intros Hi Hs. destruct (scan_ok d _ _ _ Hi Hs) as (_ & [He _] & Ht).
    destruct t as [p|op v|op v|op v|op v|op k|op k tp|k op v|k op v|k op tp]; cbn [tstep_tok tok_ok] in *.
    - apply same_refl.
    - unfold cont_leaf. rewrite (osub_more v (snd op) e) by tauto. destruct (a_lce st); [apply same_refl|now apply fail_same].
    - unfold cont_leaf. rewrite (osub_more v (snd op) e) by tauto. destruct (a_lce st); [apply same_refl|now apply fail_same].
    - unfold comment_leaf. rewrite (osub_more v (snd op) e) by tauto. apply same_refl.
    - unfold item_node. rewrite (osub_more v (snd op) e) by tauto. destruct (a_lnse st); [|now apply fail_same].
      destruct (takes_items _); [apply same_refl|now apply fail_same].
    - destruct Ht as ((H1 & H1') & H2 & (H3 & H4)).
      assert (sub dd op = sub d op) as Eo by (apply sub_more; unfold span_in in *; lia).
      assert (sub dd k = sub d k) as Ek by (apply sub_more; unfold span_in in *; lia).
      unfold multiline_node. rewrite Eo, Ek, skipn_more by assumption.
      destruct (find_closing (sub d op) (sub d k) e (skipn e d)) as [[stop [[o2 k2] e2]]|] eqn:Ec.
      + assert (~ In nl (sub d op)) as No by (rewrite H1'; intro H; apply repeat_spec in H; discriminate).
        assert (~ In nl (sub d k)) as Nk by apply H4. rewrite (find_closing_more s _ _ _ _ _ No Nk Ec).
        destruct (closing_bounds d _ _ _ _ _ _ _ He Ec) as (_ & _ & _ & B & _).
        destruct (Nat.eqb stop e); [apply same_refl|].
        destruct (ml_lines d (S (length d)) (S e) (S (a_line st)) stop) as [[ls l3]|] eqn:El; [|exact I].
        apply (ml_lines_more _ (S (length dd))) in El; [|lia|rewrite dd_length; lia]. rewrite El. apply same_refl.
      + match goal with |- same_outcome (fail_at _ ?a ?b ?c ?m) _ => destruct (fail_at_err d a b c m) as (x & ls & lc & _ & ->) end. left. exact I.
    - destruct Ht as (H1 & H2 & H3 & H4). unfold section_node. rewrite (key_more _ _ H2) by lia.
      assert (osub dd (option_map snd tp) = osub d (option_map snd tp)) as Et.
      { destruct tp as [[o x]|]; [|reflexivity]. destruct H4 as (_ & _ & H4). exact (osub_more (Some x) _ _ H4 He). }
      rewrite Et. destruct (section_parent st _) as [[q|]|]; [|exact I|now apply fail_same].
      destruct tp as [[o x]|]; [|apply same_refl]. destruct (mark_deep _ _ _); [|exact I]. cbn in Et. injection Et as Et. rewrite Et. apply same_refl.
    - destruct Ht as (H1 & (H2 & H2') & H3 & H4). unfold field_node. rewrite (key_more _ _ H1), (osub_more v (snd op) e) by (unfold span_in in *; (lia || tauto)). apply same_refl.
    - destruct Ht as (H1 & (H2 & H2') & H3 & H4). unfold entry_node. rewrite (key_more _ _ H1), (osub_more v (snd op) e) by (unfold span_in in *; (lia || tauto)).
      destruct (a_lnse st); [|now apply fail_same]. destruct (takes_entries _); [apply same_refl|now apply fail_same].
    - destruct Ht as (H1 & (H2 & H2') & H3 & H4). unfold copy_node. rewrite (key_more _ _ H1) by (unfold span_in in *; lia).
      assert (sub dd tp = sub d tp) as -> by (apply sub_more; destruct H4 as [(_ & _ & H4) _]; lia). apply same_refl.
  Qed.
  Lemma step_same st : a_index st <= length d -> same_outcome (step d st) (step dd st).
  Proof.
    intro Hi. rewrite !step_tstep by (rewrite ?dd_length; lia). unfold tstep. rewrite skipn_more by assumption.
    destruct (scan _ (skipn _ d)) as [[t e]|] eqn:E.
    - rewrite (scan_more s _ _ _ _ E). now apply tstep_tok_more.
    - destruct (fail_at_err d st (a_index st) (a_line st) PInvalidLine) as (x & ls & lc & _ & ->). left. exact I.
  Qed.
  Lemma step_more st st' : a_index st <= length d -> step d st = SOk st' -> step dd st = SOk st'.
  Proof. intros Hi H. pose proof (step_same st Hi) as E. now rewrite H in E. Qed.
  Lemma runs_more a b : runs d a b -> runs dd a b.
  Proof.
    induction 1 as [|a b c Hi Hs Hr IH]; [constructor|]. econstructor; [rewrite dd_length; lia| |exact IH]. apply step_more; [lia|assumption].
  Qed.
  Lemma reach_more st : reach d st -> reach dd st.
  Proof. rewrite !runs_reach. apply runs_more. Qed.

  (** ** The whole text *)

  (** behind the first text: everything but pending comments is as at its end *)
  Lemma behind st lc : analyze d = AOk st lc ->
    exists st1, reach dd st1 /\ a_index st1 = S (length d) /\ a_heap st1 = a_heap st /\ flush (a_meta st1) (a_comments st1) = a_meta st /\
      a_depth st1 = a_depth st /\ a_lce st1 = a_lce st /\ a_lnse st1 = a_lnse st /\ a_lsec st1 = a_lsec st /\ a_cs st1 = a_cs st /\ a_cn st1 = a_cn st.
  Proof.
    intro H. pose proof (analyze_reach d) as Ha. rewrite H in Ha. destruct Ha as (st0 & Hr & Hl & -> & _). cbn.
    destruct (reach_inv d st0 Hr) as [HI Hu]. apply reach_more in Hr.
    destruct (Nat.eq_dec (a_index st0) (S (length d))) as [E|E].
    - exists st0. repeat split; auto.
    - assert (a_index st0 = length d) as E' by lia. eexists. split.
      + eapply reach_step; [exact Hr|rewrite dd_length; lia|]. rewrite step_tstep by (rewrite dd_length; lia). unfold tstep.
        rewrite E', skipn_more by lia. rewrite skipn_all. cbn -[tstep_tok]. reflexivity.
      + cbn. rewrite Nat.add_0_r. repeat split.
  Qed.
End Append.
