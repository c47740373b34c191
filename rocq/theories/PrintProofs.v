(** PrintProofs: which errors about parsed documents can be built. *)
From Verif Require Import Base Types Messages Scan Analyzer HeapFacts AnalyzerInv StepChange SpecText AnalyzerText SpecTree AnalyzerTree AnalyzerFinal
  Resolver SpecResolve Context SpecApi ApiDoc Reporter Errors Faults SpecLookup LookupDoc ReporterFacts ReporterTags ParseErrors ParseContext ParseOutcome
  SpecSelect SelectProofs SessionInv PropLookupProofs PrintDoc SpecPrint.

(** [x] is a result, or [T] and a KeyError *)
Definition out (T : Prop) {A} (x : res A) : Prop := (exists a, x = Ok a) \/ (T /\ x = Raise KeyError).
Lemma out_ok {T : Prop} {A} (a : A) : out T (Ok a). Proof. left. now exists a. Qed.
Lemma out_bind {T : Prop} {A B} (x : res A) (f : A -> res B) : out T x -> (forall a, x = Ok a -> out T (f a)) -> out T (bind x f).
Proof. intros [[a ->]|[HT ->]] Hf; cbn [bind]; [now apply Hf|right; auto]. Qed.
Lemma out_bind_ok {T : Prop} {A B} (x : res A) (f : A -> res B) P : ok_with x P -> (forall a, P a -> out T (f a)) -> out T (bind x f).
Proof. intros (a & -> & Ha) Hf. cbn [bind]. auto. Qed.
Lemma out_have {T : Prop} {A B} (x : res A) (f : A -> res B) : (exists a, x = Ok a) -> (forall a, out T (f a)) -> out T (bind x f).
Proof. intros [a ->] Hf. cbn [bind]. auto. Qed.

Section Parsed.
  Context {inp : text} {loc : locale} {rk : reporter_kind} {src : option text} {c : ctx} (HP : parse_context inp loc rk src = Ok c).
  Local Notation h := (c_heap c).
  Local Notation nd := (hget (c_heap c)).
  Local Notation lc := (c_line_count c).
  Let Hwf : WF c := wf_parse inp loc rk src c HP.
  Let L : LDoc inp h := pf_doc (facts HP).
  Let PD : PDoc h (c_meta c) := pdoc_parse HP.
  Let HD : Doc h := doc_of_parse inp loc rk src c HP.

  (** * The same notions of gaps *)

  Lemma child x e : In x (n_elements (nd e)) -> 0 < x < length h.
  Proof. intro Hx. apply (shape_elem h e x (wf_shape _ Hwf)) in Hx as [H _]. lia. Qed.
  Lemma kind e : 0 < e < length h -> n_type (nd e) <> DOCUMENT /\ lshape (nd e).
  Proof. intro He. split; [now apply (in_tree_type c Hwf)|]. apply (ld_shape _ _ L). lia. Qed.
  Lemma bare_iff e : 0 < e < length h -> unscannable c e <-> bare h e.
  Proof.
    intro He. split; intro H; revert He.
    - induction H as [e H|e H1 H2|e l x H1 H2 H3 IH]; intro He.
      + apply bare_empty. destruct (kind e He) as [K1 (_ & _ & _ & K2)]. destruct (n_type (nd e)); try contradiction; congruence.
      + now apply bare_fieldset.
      + apply (bare_section h e l x); auto. apply IH. apply (child x e). rewrite H2. apply in_or_app. right. now left.
    - induction H as [e H|e H1 H2|e l x H1 H2 H3 IH]; intro He.
      + apply us_type. now rewrite H.
      + now apply us_fieldset.
      + apply (us_section c e l x); auto. apply IH. apply (child x e). rewrite H2. apply in_or_app. right. now left.
  Qed.
  Lemma gap_iff e : breaks c e <-> gap_inside h e.
  Proof.
    split; induction 1 as [e l1 x y l2 H1 H2 H3|e x H1 H2 H3 IH].
    - apply (gap_here h e l1 x y l2); auto. apply bare_iff; auto. apply (child x e). rewrite H2. apply in_or_app. right. now left.
    - now apply (gap_below h e x).
    - apply (br_here c e l1 x y l2); auto. apply bare_iff; auto. apply (child x e). rewrite H2. apply in_or_app. right. now left.
    - now apply (br_sub c e x).
  Qed.
  Lemma top_iff e : (n_type (nd e) = SECTION /\ flat_breaks c (n_elements (nd e))) <-> gap_at_top h e.
  Proof.
    split.
    - intros (H1 & l1 & x & y & l2 & H2 & H3 & H4 & H5). split; [assumption|]. exists l1, x, y, l2. split; [assumption|]. split.
      + intros z Hz. apply in_app_or in Hz as [Hz|[<-|[]]]; auto.
      + apply bare_iff; auto. apply (child x e). rewrite H2. apply in_or_app. right. now left.
    - intros (H1 & l1 & x & y & l2 & H2 & H3 & H5). split; [assumption|]. exists l1, x, y, l2. split; [assumption|]. split; [|split].
      + intros z Hz. apply H3, in_or_app. now left.
      + apply H3, in_or_app. right. now left.
      + apply bare_iff; auto. apply (child x e). rewrite H2. apply in_or_app. right. now left.
  Qed.
  Lemma no_gap e : n_type (nd e) <> SECTION -> ~ gap_inside h e.
  Proof. intros Ht H. destruct H; contradiction. Qed.

  (** * Selections *)

  Lemma node_line_range e : 0 < e < length h -> rget (n_ranges (nd e)) R_line <> None.
  Proof. intro He. apply (wf_node _ Hwf e He). Qed.
  Lemma node_cursor e r p : 0 < e < length h -> rget (n_ranges (nd e)) r <> None -> exists x, cursor (node_ins (nd e)) r p = Ok x.
  Proof.
    intros He Hr. apply cursor_ok; cbn [i_ranges node_ins]; [assumption|now apply node_line_range|]. rewrite (node_ins_line c Hwf e He). discriminate.
  Qed.
  Lemma hang_ok e l : 0 < e < length h -> In l (hanging (nd e)) -> leaf_ok lc l.
  Proof. intros He Hl. destruct (wf_node _ Hwf e He) as (_ & _ & F). rewrite Forall_forall in F. auto. Qed.
  Lemma span_ok i i' : rget (i_ranges i) R_line <> None -> i_line i <> None -> rget (i_ranges i') R_line <> None -> i_line i' <> None ->
    exists s, selection i R_line BEGIN i' R_line END = Ok s.
  Proof. intros. apply selection_ok; assumption. Qed.
  Definition placed_ins (i : ins) : Prop := rget (i_ranges i) R_line <> None /\ i_line i <> None.
  Lemma placed_node e : 0 < e < length h -> placed_ins (node_ins (nd e)).
  Proof. intro He. split; [now apply node_line_range|]. rewrite (node_ins_line c Hwf e He). discriminate. Qed.
  Lemma placed_leaf e l : 0 < e < length h -> In l (hanging (nd e)) -> placed_ins (leaf_ins l).
  Proof. intros He Hl. split; [|discriminate]. apply (hang_ok e l He Hl). Qed.
  Lemma last_in_ok fuel : forall e, 0 < e -> e < length h -> length h <= fuel + e -> exists i, last_in fuel h e = Ok i /\ placed_ins i.
  Proof.
    induction fuel as [|f IH]; intros e He0 He Hf; [lia|]. cbn [last_in]. destruct (kind e (conj He0 He)) as [K1 (K2 & K3 & K4 & K5)].
    pose proof (placed_node e (conj He0 He)) as Pn.
    assert (forall l, n_conts (nd e) = Some l -> exists i, (do x <- last_of l; Ok (leaf_ins x)) = Ok i /\ placed_ins i) as Kc.
    { intros l El. assert (l <> []) as Hl by congruence. rewrite (last_of_last l (MkLeaf None 0 [] None false) Hl). cbn [bind]. eexists. split; [reflexivity|].
      apply (placed_leaf e); [auto|]. apply hang_conts. rewrite El. destruct (exists_last Hl) as (l' & z & ->). rewrite last_last. apply in_or_app. right. now left. }
    assert (forall l, l <> [] -> (forall x, In x l -> e < x < length h) -> exists i, (do x <- last_of l; last_in f h x) = Ok i /\ placed_ins i) as Kn.
    { intros l Hl Hx. rewrite (last_of_last l 0 Hl). cbn [bind]. assert (In (last l 0) l) as Hin by (destruct (exists_last Hl) as (l' & z & ->); rewrite last_last; apply in_or_app; right; now left).
      apply Hx in Hin. apply IH; lia. }
    destruct (n_type (nd e)) eqn:Et; try (now contradiction K5); try (exists (node_ins (nd e)); split; [reflexivity|exact Pn]).
    - destruct (n_conts (nd e)) as [cs|] eqn:Ec; [now apply Kc|eauto].
    - destruct (n_entries (nd e)) as [l|] eqn:El; [|eauto]. apply Kn; [congruence|]. intros x Hx.
      assert (In x (olist (n_entries (nd e)))) as Hx' by (rewrite El; exact Hx). apply (shape_entry h e x (wf_shape _ Hwf)) in Hx' as [Hx' _]. exact Hx'.
    - destruct (n_conts (nd e)) as [cs|] eqn:Ec; [now apply Kc|eauto].
    - destruct (n_items (nd e)) as [l|] eqn:El; [|eauto]. apply Kn; [congruence|]. intros x Hx.
      assert (In x (olist (n_items (nd e)))) as Hx' by (rewrite El; exact Hx). apply (shape_item h e x (wf_shape _ Hwf)) in Hx' as [Hx' _]. exact Hx'.
    - destruct (n_conts (nd e)) as [cs|] eqn:Ec; [now apply Kc|eauto].
    - destruct K5 as (_ & _ & _ & _ & K5). destruct (n_end (nd e)) as [l|] eqn:El; [|congruence]. cbn. eexists. split; [reflexivity|].
      apply (placed_leaf e); [auto|]. now apply hang_end.
    - destruct (n_elements (nd e)) as [|x0 l0] eqn:El; [eauto|]. rewrite <- El. apply Kn; [rewrite El; discriminate|]. intros x Hx.
      apply (shape_elem h e x (wf_shape _ Hwf)) in Hx as [Hx _]. exact Hx.
  Qed.
  Lemma select_element_ok e : 0 < e < length h -> exists s, select_element c e = Ok s.
  Proof.
    intro He. unfold select_element. destruct (last_in_ok (S (length h)) e) as (i & -> & Hi); try lia. cbn [bind].
    destruct (placed_node e He), Hi. now apply span_ok.
  Qed.
  Lemma select_point_ok e p : 0 < e < length h -> exists s, select_point (node_ins (nd e)) R_line p = Ok s.
  Proof. intro He. destruct (placed_node e He). now apply selection_ok. Qed.
  Lemma select_key_ok e : 0 < e < length h -> n_type (nd e) <> LIST_ITEM -> exists s, select_key c e = Ok s.
  Proof. intros He Ht. apply (select_node c Hwf e R_key He). now apply (pd_key _ _ PD). Qed.
  Lemma select_comments_ok e : 0 < e < length h -> n_comments (nd e) <> None -> exists s, select_comments c e = Ok s.
  Proof.
    intros He Hc. unfold select_comments. destruct (n_comments (nd e)) as [cs|] eqn:Ec; [|congruence]. cbn [key_or bind].
    pose proof (pd_comments _ _ PD e) as F. rewrite Ec in F. cbn [olist] in F.
    assert (forall l, In l cs -> placed_ins (leaf_ins l)) as Kp by (intros l Hl; apply (placed_leaf e); [auto|]; apply hang_comments; rewrite Ec; exact Hl).
    destruct cs as [|x [|y cs]].
    - now apply select_point_ok.
    - destruct (Kp x (or_introl eq_refl)) as [P1 P2]. destruct (l_text x) as [t|] eqn:El.
      + destruct (wf_text _ Hwf e He) as (_ & _ & _ & _ & _ & W). rewrite Forall_forall in W.
        assert (In x (hanging (nd e))) as Hx by (apply hang_comments; rewrite Ec; now left). specialize (W x Hx) as [_ W]. inversion F as [|? ? F1 _]; subst. rewrite F1 in W.
        destruct W as [W _]. rewrite El in W. apply selection_ok; auto; cbn; destruct (rget (l_ranges x) R_comment); discriminate.
      + apply selection_ok; auto.
    - destruct (last_of (x :: y :: cs)) as [z|z] eqn:Ez.
      + cbn [bind]. apply last_of_in in Ez. destruct (Kp x (or_introl eq_refl)), (Kp z Ez). now apply span_ok.
      + rewrite (last_of_last _ x) in Ez by discriminate. discriminate.
  Qed.

  (** * Reports *)

  Section Out.
    Context (T : Prop) (HT : forall r, rep c r -> out T (snippet r)).

    Lemma out_build t s sel : (exists x, t = Ok x) -> out T s -> (exists x, sel = Ok x) -> out T (build t s sel).
    Proof. intros H1 H2 H3. unfold build. apply out_have; [assumption|]. intro a. apply out_bind; [assumption|]. intros b _. apply out_have; [assumption|]. intro. apply out_ok. Qed.
    Lemma out_report f : (forall r, rep c r -> ok_with (f r) (rep c)) -> out T (report c f).
    Proof. intro Hf. unfold report. eapply out_bind_ok; [apply rep_new; exact Hwf|]. intros r Hr. eapply out_bind_ok; [exact (Hf r Hr)|]. exact HT. Qed.
    Lemma element_reported r e : rep c r -> 0 < e < length h -> ~ gap_inside h e -> ok_with (report_element r e) (rep c).
    Proof. intros Hr He Hg. destruct (rep_element c Hwf r e Hr He) as [[H _]|[_ H]]; [assumption|]. apply gap_iff in H. contradiction. Qed.
    Lemma out_element e : 0 < e < length h -> ~ gap_inside h e -> out T (report c (fun r => report_element r e)).
    Proof. intros He Hg. apply out_report. intros r Hr. now apply element_reported. Qed.
    Lemma out_line e : 0 < e < length h -> out T (report c (fun r => report_line r e)).
    Proof. intros He. apply out_report. intros r Hr. now apply rep_mark_node. Qed.
    Lemma out_elements es : (forall e, In e es -> 0 < e < length h /\ ~ gap_inside h e) -> out T (report c (fun r => report_elements r es)).
    Proof.
      intros H. apply out_report. intros r Hr. unfold report_elements. apply ok_foldM; [assumption|]. intros r' e Hr' He. destruct (H e He). now apply element_reported.
    Qed.
    Lemma out_fin s sel t : out T s -> (exists x, sel = Ok x) -> out T (do s <- s; do sel <- sel; Ok (MkErr t s sel)).
    Proof. intros H1 H2. apply out_bind; [assumption|]. intros b _. apply out_have; [assumption|]. intro. apply out_ok. Qed.
    Lemma cont_cursor e cs p : 0 < e < length h -> n_conts (nd e) = Some cs -> exists x, (do l <- last_of cs; cursor (leaf_ins l) R_line p) = Ok x.
    Proof.
      intros He Ec. destruct (kind e He) as [_ (K2 & _)]. assert (cs <> []) as Hl by congruence.
      rewrite (last_of_last cs (MkLeaf None 0 [] None false) Hl). cbn [bind]. apply (leaf_cursor c). apply (hang_ok e _ He). apply hang_conts. rewrite Ec.
      destruct (exists_last Hl) as (l' & z & ->). rewrite last_last. apply in_or_app. right. now left.
    Qed.
    Lemma opt_some {A} (o : option A) : opt_is o = true -> o <> None. Proof. destruct o; [discriminate|cbn; discriminate]. Qed.
    Lemma key_ok e : 0 < e < length h -> n_type (nd e) <> LIST_ITEM -> exists k, key c e = Ok k.
    Proof. intros He Ht. pose proof (doc_key _ HD e He Ht) as K. unfold key. destruct (n_key (nd e)) as [k|]; [|congruence]. now exists k. Qed.

    Lemma value_from e : 0 < e < length h ->
      exists f, (if opt_is (rget (n_ranges (nd e)) R_template) then cursor (node_ins (nd e)) R_template END
                 else if opt_is (rget (n_ranges (nd e)) R_element_operator) then cursor (node_ins (nd e)) R_element_operator END
                 else cursor (node_ins (nd e)) R_line END) = Ok f.
    Proof.
      intro He. destruct (opt_is (rget (n_ranges (nd e)) R_template)) eqn:E1; [apply node_cursor; auto using opt_some|].
      destruct (opt_is (rget (n_ranges (nd e)) R_element_operator)) eqn:E2; [apply node_cursor; auto using opt_some|]. apply node_cursor; auto. now apply node_line_range.
    Qed.
    Lemma missing_value_ok e : 0 < e < length h -> n_type (nd e) = FIELD \/ n_type (nd e) = EMPTY_ELEMENT \/ n_type (nd e) = MULTILINE_FIELD_BEGIN \/
      n_type (nd e) = FIELDSET_ENTRY \/ n_type (nd e) = LIST_ITEM -> out T (v_missing_value c e).
    Proof.
      intros He Ht. assert (n_type (nd e) <> SECTION) as Hn by (intuition congruence). pose proof (no_gap e Hn) as Hg.
      assert (exists to, match n_type (nd e), n_conts (nd e) with
             | FIELD, Some cs => do l <- last_of cs; cursor (leaf_ins l) R_line END
             | _, _ => cursor (node_ins (nd e)) R_line END
             end = Ok to) as Kto.
      { pose proof (node_cursor e R_line END He (node_line_range e He)) as K. destruct (n_type (nd e)); auto. destruct (n_conts (nd e)) as [cs|] eqn:Ec; [|assumption]. now apply (cont_cursor e). }
      pose proof (value_from e He) as Kf. unfold v_missing_value. cbv zeta.
      assert (forall t, exists mf, (do f <- (if opt_is (rget (n_ranges (nd e)) R_template) then cursor (node_ins (nd e)) R_template END
                 else if opt_is (rget (n_ranges (nd e)) R_element_operator) then cursor (node_ins (nd e)) R_element_operator END
                 else cursor (node_ins (nd e)) R_line END); Ok (Some (t : text, f))) = Ok (Some mf)) as Kt.
      { intro t. destruct Kf as [f ->]. cbn [bind]. now eexists. }
      assert (n_type (nd e) <> LIST_ITEM -> exists k, key c e = Ok k) as Kk by (now apply key_ok).
      match goal with |- out T (do mf <- ?M; _) => assert (exists mf, M = Ok (Some mf)) as [mf ->] end.
      { destruct Ht as [Ht|[Ht|[Ht|[Ht|Ht]]]]; rewrite Ht in *.
        1-3: destruct Kk as [k ->]; [discriminate|]; cbn [bind]; apply Kt.
        - destruct Kk as [k ->]; [discriminate|]. cbn [bind]. destruct (node_cursor e R_entry_operator END He (pd_entry _ _ PD e He Ht)) as [f ->]. cbn [bind]. now eexists.
        - destruct (doc_parent _ HD e He) as (p & -> & Hp & _ & _ & Kp). cbn [key_or bind]. specialize (Kp (or_introl Ht)).
          assert (p <> 0 /\ n_type (nd p) <> LIST_ITEM) as [Hp0 Hpt].
          { split; [intros ->; destruct (doc_root _ HD) as (_ & E & _); unfold is_element in Kp; rewrite E in Kp; intuition discriminate|].
            intro E. unfold is_element in Kp; rewrite E in Kp; intuition discriminate. }
          destruct (key_ok p ltac:(lia) Hpt) as [k ->]. cbn [bind]. destruct (pd_item _ _ PD e He Ht) as (_ & K & _). destruct (node_cursor e R_item_operator END He K) as [f ->]. cbn [bind]. now eexists. }
      cbn [bind]. apply out_bind; [now apply out_element|]. intros s _. destruct Kto as [to ->]. cbn [bind]. destruct mf. apply out_ok.
    Qed.
    Lemma value_error_ok m e : 0 < e < length h -> (n_mirror (nd e) = None -> ~ gap_inside h e) -> out T (v_value_error c m e).
    Proof.
      intros He Hg. unfold v_value_error. cbv zeta. destruct (n_mirror (nd e)) as [mi|] eqn:Em; cbn [opt_is].
      - apply out_fin; [now apply out_line|]. apply select_key_ok; [assumption|]. intro Ht. destruct (pd_item _ _ PD e He Ht) as (_ & _ & K). congruence.
      - specialize (Hg eq_refl). destruct (itype_eqb (n_type (nd e)) MULTILINE_FIELD_BEGIN).
        + destruct (n_lines (nd e)) as [ls|] eqn:El.
          * apply out_fin.
            -- apply out_report. intros r Hr. exact (rep_multiline c Hwf r e ls Hr He El).
            -- destruct ls as [|x ls]; [now apply (pd_lines _ _ PD e He) in El|]. cbn [bind].
               assert (forall l, In l (x :: ls) -> placed_ins (leaf_ins l)) as Kp by (intros l Hl; apply (placed_leaf e); [auto|]; apply hang_lines; rewrite El; exact Hl).
               destruct (last_of (x :: ls)) as [z|z] eqn:Ez; [|rewrite (last_of_last _ x) in Ez by discriminate; discriminate].
               cbn [bind]. apply last_of_in in Ez. destruct (Kp x (or_introl eq_refl)), (Kp z Ez). now apply span_ok.
          * apply out_fin; [now apply out_element|]. now apply select_point_ok.
        + apply out_fin; [now apply out_element|].
          assert (exists f, (if opt_is (rget (n_ranges (nd e)) R_value) then cursor (node_ins (nd e)) R_value BEGIN
                    else if opt_is (rget (n_ranges (nd e)) R_element_operator) then cursor (node_ins (nd e)) R_element_operator END
                    else if opt_is (rget (n_ranges (nd e)) R_entry_operator) then cursor (node_ins (nd e)) R_entry_operator END
                    else if itype_eqb (n_type (nd e)) LIST_ITEM then cursor (node_ins (nd e)) R_item_operator END
                    else cursor (node_ins (nd e)) R_line END) = Ok f) as [f ->].
          { destruct (opt_is (rget (n_ranges (nd e)) R_value)) eqn:E1; [apply node_cursor; auto using opt_some|].
            destruct (opt_is (rget (n_ranges (nd e)) R_element_operator)) eqn:E2; [apply node_cursor; auto using opt_some|].
            destruct (opt_is (rget (n_ranges (nd e)) R_entry_operator)) eqn:E3; [apply node_cursor; auto using opt_some|].
            destruct (itype_eqb (n_type (nd e)) LIST_ITEM) eqn:E4; [|apply node_cursor; auto; now apply node_line_range].
            assert (n_type (nd e) = LIST_ITEM) as Ht by (destruct (n_type (nd e)); cbn in E4; congruence). destruct (pd_item _ _ PD e He Ht) as (_ & K & _). now apply node_cursor. }
          cbn [bind]. destruct (n_conts (nd e)) as [cs|] eqn:Ec.
          * destruct (cont_cursor e cs END He Ec) as [x Hx].
            destruct (last_of cs) as [z|z] eqn:Ez; cbn [bind] in *; [|discriminate]. rewrite Hx. cbn [bind]. eexists. reflexivity.
          * destruct (opt_is (rget (n_ranges (nd e)) R_value)) eqn:E1.
            -- destruct (node_cursor e R_value END He (opt_some _ E1)) as [x ->]. cbn [bind]. eexists. reflexivity.
            -- destruct (node_cursor e R_line END He (node_line_range e He)) as [x ->]. cbn [bind]. eexists. reflexivity.
    Qed.

    Theorem reportable_out v : Forall (fun e => e < length h) (concerned v) -> reportable h v -> out T (validation_error c v).
    Proof.
      intros Hc Hv.
      assert (forall e, In e (concerned v) -> e <> 0 -> 0 < e < length h) as Hin by (intros e He H0; rewrite Forall_forall in Hc; specialize (Hc e He); lia).
      destruct v as [m e|m e|m e|m e|e|k e q|e|m e|k es q|k e q]; cbn [validation_error reportable concerned] in *.
      - destruct Hv as [H0 Hv]. specialize (Hin e (or_introl eq_refl) H0). apply out_build; [eexists; reflexivity| |now apply select_comments_ok].
        apply out_report. intros r Hr. destruct (n_comments (nd e)) as [cs|] eqn:Ec; [|congruence]. exact (rep_comments c Hwf r e cs Hr Hin Ec).
      - destruct Hv as [H0 Hv]. specialize (Hin e (or_introl eq_refl) H0). apply out_build; [eexists; reflexivity|now apply out_element|now apply select_element_ok].
      - destruct Hv as [H0 Hv]. specialize (Hin e (or_introl eq_refl) H0). apply out_build; [eexists; reflexivity|now apply out_line|now apply select_key_ok].
      - destruct Hv as [H0 Hv]. specialize (Hin e (or_introl eq_refl) H0). now apply value_error_ok.
      - specialize (Hin e (or_introl eq_refl) Hv). apply out_build; [eexists; reflexivity|now apply out_line|now apply select_point_ok].
      - apply out_build; [eexists; reflexivity| |].
        + apply out_report. intros r Hr. inversion Hc; subst. destruct (rep_missing c Hwf r e Hr) as [[H _]|[_ H]]; [assumption|assumption|]. apply top_iff in H. contradiction.
        + destruct (itype_eqb (n_type (nd e)) DOCUMENT) eqn:E; [eexists; reflexivity|]. apply select_point_ok, Hin; [now left|]. intros ->.
          destruct (doc_root _ HD) as (_ & Ed & _). rewrite Ed in E. discriminate.
      - assert (e <> 0) as H0 by (intros ->; destruct (doc_root _ HD) as (_ & Ed & _); rewrite Ed in Hv; exact Hv). apply missing_value_ok; [now apply Hin; [left|]|].
        destruct (n_type (nd e)); auto; contradiction.
      - destruct Hv as [H0 Hv]. specialize (Hin e (or_introl eq_refl) H0). apply out_build; [eexists; reflexivity|now apply out_element|now apply select_element_ok].
      - destruct Hv as [Hn Hv]. apply out_build; [eexists; reflexivity| |].
        + apply out_elements. intros e He. destruct (Hv e He) as [H0 Hg]. split; [now apply Hin|assumption].
        + destruct es as [|e es]; [congruence|]. apply select_element_ok, Hin; [now left|]. apply (Hv e). now left.
      - destruct Hv as [H0 Hv]. specialize (Hin e (or_introl eq_refl) H0). apply out_build; [eexists; reflexivity|now apply out_element|now apply select_element_ok].
    Qed.
  End Out.

  (** * Which reports succeed *)

  Lemma report_inv f t : report c f = Ok t -> exists r r', rep c r /\ f r = Ok r'.
  Proof.
    unfold report. destruct (rep_new c Hwf) as (r & -> & Hr). cbn [bind]. destruct (f r) as [r'|] eqn:E; [|discriminate]. intros _. now exists r, r'.
  Qed.
  Lemma mark_inv r e t r' : rep c r -> mark_node r e t = Ok r' -> e <> 0.
  Proof.
    intros Hr H ->. unfold mark_node in H. rewrite (rep_heap c r Hr) in H. unfold node_line in H. destruct (doc_root _ HD) as (_ & Ed & _). rewrite Ed in H. discriminate.
  Qed.
  Lemma element_inv r e r' : rep c r -> e < length h -> report_element r e = Ok r' -> shows h e /\ rep c r'.
  Proof.
    intros Hr Hlt H. assert (e <> 0) as H0.
    { unfold report_element in H. destruct (mark_node r e EMPHASIZE) as [r1|] eqn:E; [|discriminate]. exact (mark_inv _ _ _ _ Hr E). }
    destruct (rep_element c Hwf r e Hr ltac:(lia)) as [[(r2 & E & H2) Hb]|[E _]]; [|congruence]. rewrite E in H. injection H as <-.
    split; [split; [assumption|]|assumption]. intro Hg. apply Hb. now apply gap_iff.
  Qed.
  Lemma element_shows e t : e < length h -> report c (fun r => report_element r e) = Ok t -> shows h e.
  Proof. intros Hlt H. apply report_inv in H as (r & r' & Hr & H). exact (proj1 (element_inv r e r' Hr Hlt H)). Qed.
  Lemma elements_inv : forall es r r', Forall (fun e => e < length h) es -> rep c r -> report_elements r es = Ok r' -> forall e, In e es -> shows h e.
  Proof.
    induction es as [|x es IH]; intros r r' Hes Hr H e He; [destruct He|]. cbn in H. destruct (report_element r x) as [r1|] eqn:E; [|discriminate]. cbn [bind] in H.
    inversion Hes as [|? ? Hx Hes']; subst. destruct (element_inv r x r1 Hr Hx E) as [Hs Hr1]. destruct He as [<-|He]; [assumption|]. exact (IH r1 r' Hes' Hr1 H e He).
  Qed.
  Lemma line_inv e t : report c (fun r => report_line r e) = Ok t -> e <> 0.
  Proof. intro H. apply report_inv in H as (r & r' & Hr & H). exact (mark_inv _ _ _ _ Hr H). Qed.

  Theorem ok_reportable v x : Forall (fun e => e < length h) (concerned v) -> validation_error c v = Ok x -> reportable h v.
  Proof.
    intros Hc Hv. assert (forall e, In e (concerned v) -> e < length h) as Hin by (now apply Forall_forall).
    destruct v as [m e|m e|m e|m e|e|k e q|e|m e|k es q|k e q]; cbn [validation_error reportable concerned] in *;
      unfold v_comment_error, v_element_error, v_key_error, v_missing_comment, v_missing_element, v_unexpected_element, v_unexpected_multiple_elements, v_unexpected_element_type in Hv; cbv zeta in Hv.
    - apply build_ok in Hv as (_ & Hs & Hv). apply report_inv in Hs as (r & r' & Hr & Hs). unfold report_comments in Hs.
      destruct (mark_node r e INDICATE) as [r1|] eqn:E; [|discriminate]. split; [exact (mark_inv _ _ _ _ Hr E)|]. unfold select_comments in Hv. intro En. rewrite En in Hv. discriminate.
    - apply build_ok in Hv as (_ & Hs & _). apply (element_shows e _ (Hin e (or_introl eq_refl)) Hs).
    - apply build_ok in Hv as (_ & Hs & Hv). pose proof (line_inv _ _ Hs) as H0. split; [assumption|]. intro Ht. specialize (Hin e (or_introl eq_refl)).
      destruct (pd_item _ _ PD e ltac:(lia) Ht) as (K & _). unfold select_key, select_range, selection, cursor in Hv. cbn [i_ranges node_ins] in Hv. rewrite K in Hv. discriminate.
    - unfold v_value_error in Hv. cbv zeta in Hv. destruct (n_mirror (nd e)) as [mi|] eqn:Em; cbn [opt_is] in Hv.
      + apply bind_ok in Hv as (t & Ht & _). split; [exact (line_inv _ _ Ht)|discriminate].
      + destruct (itype_eqb (n_type (nd e)) MULTILINE_FIELD_BEGIN) eqn:Et.
        * assert (n_type (nd e) = MULTILINE_FIELD_BEGIN) as Et' by (destruct (n_type (nd e)); cbn in Et; congruence). split.
          -- intros ->. destruct (doc_root _ HD) as (_ & Ed & _). congruence.
          -- intros _. apply no_gap. congruence.
        * apply bind_ok in Hv as (t & Ht & _). apply (element_shows e _ (Hin e (or_introl eq_refl))) in Ht as [H0 Hg]. auto.
    - apply build_ok in Hv as (_ & Hs & _). exact (line_inv _ _ Hs).
    - apply build_ok in Hv as (_ & Hs & _). apply report_inv in Hs as (r & r' & Hr & Hs). intro Hg. apply top_iff in Hg.
      destruct (rep_missing c Hwf r e Hr (Hin e (or_introl eq_refl))) as [[_ H]|[H _]]; [contradiction|congruence].
    - unfold v_missing_value in Hv. cbv zeta in Hv. destruct (n_type (nd e)); auto; cbn [bind] in Hv;
        (apply bind_ok in Hv as (s & _ & Hv); apply bind_ok in Hv as (to & _ & Hv); discriminate).
    - apply build_ok in Hv as (_ & Hs & _). apply (element_shows e _ (Hin e (or_introl eq_refl)) Hs).
    - apply build_ok in Hv as (_ & Hs & Hv). split; [intros ->; discriminate|]. apply report_inv in Hs as (r & r' & Hr & Hs). exact (elements_inv es r r' Hc Hr Hs).
    - apply build_ok in Hv as (_ & Hs & _). apply (element_shows e _ (Hin e (or_introl eq_refl)) Hs).
  Qed.

  (** * Printing *)

  Lemma styled_fold lb l : (forall nm s, In (nm, s) l -> range_style nm <> None) -> forall x, exists y,
    foldM (fun content x => let '(name, (b, e)) := x in
             match range_style name with
             | None => Raise KeyError
             | Some st => Ok (firstn (b - lb) content ++ st ++ slice (c_input c) b e ++ RESET ++ skipn (e - lb) content)
             end) l x = Ok y.
  Proof.
    induction l as [|[nm [b e]] l IH]; intros Hl x; cbn [foldM]; [eexists; reflexivity|]. destruct (range_style nm) eqn:E; [|now apply (Hl nm (b, e)) in E; [|left]].
    cbn [bind]. apply IH. intros nm' s Hs. apply (Hl nm' s). now right.
  Qed.
  Lemma insert_in x l y : In y (insert_desc x l) <-> y = x \/ In y l.
  Proof. induction l as [|z l IH]; cbn; [intuition|]. match goal with |- context [if ?b then _ else _] => destruct b end; cbn; [intuition congruence|]. rewrite IH. intuition congruence. Qed.
  Lemma sort_in l y : In y (sort_desc l) -> In y l.
  Proof.
    unfold sort_desc. assert (forall acc, In y (fold_left (fun acc x => insert_desc x acc) l acc) -> In y acc \/ In y l) as K.
    { induction l as [|x l IH]; intros acc H; cbn in H; [auto|]. apply IH in H as [H|H]; [apply insert_in in H as [->|H]|]; cbn; auto. }
    intro H. apply K in H as [[]|H]. exact H.
  Qed.
  Lemma terminal_ok r j t : rep c r -> (forall ri, info_at r j = Some ri -> exists ty, ri_type ri = Some ty /\ (ty = COMMENT \/ styled (ri_ranges ri))) ->
    exists x, terminal_line r j t = Ok x.
  Proof.
    intros Hr Hi. unfold terminal_line. rewrite (proj1 Hr).
    assert (forall A B (m : res A) (f : A -> B), (exists y, m = Ok y) -> exists x, bind m (fun y => Ok (f y)) = Ok x) as K by (intros A B m f [y ->]; cbn [bind]; eexists; reflexivity).
    destruct t; [apply K|apply K|apply K|eexists; reflexivity|apply K]; clear K.
    all: destruct (info_at r j) as [ri|] eqn:Ei; [|eexists; reflexivity].
    all: destruct (Hi ri eq_refl) as (ty & -> & Hs).
    all: destruct (line_content_ok c Hwf r j ri Hr Ei) as [x ->].
    all: cbn [bind].
    all: destruct (itype_eqb ty COMMENT || itype_eqb ty UNPARSED) eqn:Et; [eexists; reflexivity|].
    all: destruct Hs as [->|Hs]; [discriminate|].
    all: apply styled_fold.
    all: intros nm s Hin.
    all: apply sort_in, filter_In in Hin as [Hin Hn].
    all: cbn in Hn.
    all: destruct (Hs nm s Hin) as [->|H]; [discriminate|assumption].
  Qed.
  Lemma info_styled r j ri : no_deep_copies h -> rep c r -> info_at r j = Some ri -> exists ty, ri_type ri = Some ty /\ (ty = COMMENT \/ styled (ri_ranges ri)).
  Proof.
    intros Hd (H1 & H2 & H3) Hi. unfold info_at in Hi. destruct (nth_error (r_index r) j) as [[x|]|] eqn:E; try discriminate. injection Hi as ->. apply H2 in E.
    destruct E as [(i & Hi & _ & ->)|[(i & l & Hi & Hl & _ & ->)|(l & Hl & _ & ->)]].
    - exists (n_type (nd i)). split; [reflexivity|]. right. cbn. destruct (pd_styles _ _ PD i Hi) as [K _]. intros nm s Hin. destruct (K nm s Hin) as [->|[H| ->]]; auto.
      exfalso. specialize (Hd i). clear - Hd Hin. induction (n_ranges (hget (c_heap c) i)) as [|[m s'] rs IH]; [destruct Hin|]. cbn in Hd. destruct (rname_eqb m R_deep_copy_operator) eqn:E; [discriminate|]. destruct Hin as [[= -> ->]|Hin]; [discriminate|auto].
    - destruct (pd_styles _ _ PD i Hi) as [_ K]. rewrite Forall_forall in K. destruct (K l Hl) as [K1 K2]. cbn. destruct (l_type l) as [ty|]; [|congruence]. exists ty. split; [reflexivity|].
      destruct K2 as [[= ->]|K2]; auto.
    - pose proof (pd_meta _ _ PD) as K. unfold comments_typed in K. rewrite Forall_forall in K. exists COMMENT. split; [exact (K l Hl)|now left].
  Qed.
  Lemma snippet_styled r : no_deep_copies h -> rep c r -> exists x, snippet r = Ok x.
  Proof.
    intros Hd Hr. destruct (c_reporter c) eqn:Ek; [apply (snippet_ok c Hwf); [assumption|congruence]|apply (snippet_ok c Hwf); [assumption|congruence]|].
    unfold snippet. rewrite (proj1 Hr). destruct (complete_ok c Hwf (r_snip r) (proj2 (proj2 Hr))) as (s & E & Hs).
    rewrite E. cbn [bind]. pose proof (rep_with c r s Hr Hs) as Hr'. unfold print. rewrite (proj1 Hr'), Ek.
    destruct (print_lines_ok (terminal_line (with_snip r s)) 0 (r_snip (with_snip r s))) as [xs ->]; [|cbn [bind]; eexists; reflexivity].
    intros j t. apply terminal_ok; [assumption|]. intros ri Hi. exact (info_styled _ j ri Hd Hr' Hi).
  Qed.

  Theorem reportable_ok v : Forall (fun e => e < length h) (concerned v) -> c_reporter c <> TerminalReporter \/ no_deep_copies h ->
    ((exists x, validation_error c v = Ok x) <-> reportable h v).
  Proof.
    intros Hc Hk. split; [intros [x Hx]; exact (ok_reportable v x Hc Hx)|]. intro Hv.
    destruct (reportable_out False) with (v := v) as [H|[[] _]]; auto. intros r Hr. left. destruct Hk as [Hk|Hk]; [now apply (snippet_ok c Hwf)|now apply snippet_styled].
  Qed.
  Theorem reportable_terminal v : Forall (fun e => e < length h) (concerned v) -> reportable h v ->
    (exists x, validation_error c v = Ok x) \/ c_reporter c = TerminalReporter /\ validation_error c v = Raise KeyError.
  Proof.
    intros Hc Hv. destruct (reportable_out (c_reporter c = TerminalReporter)) with (v := v) as [H|H]; auto. intros r Hr. destruct (snippet_out c Hwf r Hr) as [H|H]; [now left|now right].
  Qed.
End Parsed.
