(** FaultMarks: which lines the errors about texts mark. *)
From Verif Require Import Base Regex Grammar Types Messages Scan Analyzer TokenStep ScanProofs ScanFacts StepProofs HeapFacts AnalyzerInv AnalyzerLoop StepChange SpecText AnalyzerText AnalyzerTiles AnalyzerBlocks
  AnalyzerLines AnalyzerFinal AnalyzerBounds SpecTree AnalyzerTree Resolver SpecResolve ResolverIndex ResolverFields ResolverSections ResolverFinal ResolverComments NumberOrder
  Reporter Errors Context Faults SpecLookup LookupDoc LookupProofs ReporterFacts ReporterTags ParseErrors ParseContext ParseOutcome SelectProofs PrintDoc PrintProofs PropAnalysisProofs
  SpecSnippet SnippetRows SnippetCover ReporterFree SpecDraw DrawProofs DrawDoc SpecMarks LineOrder TagProofs LayoutProofs MarkProofs.

Lemma over_line c r mk l t r' : marking c r mk -> t <> DISPLAY -> t <> OMISSION -> mark_line r l t = Ok r' -> marking c r' (over mk (on l (mark_of t))).
Proof.
  intros HM T1 T2 H. apply (mark_line_marking c r mk l t r' HM T1 T2) in H. refine (marking_iff c _ _ _ H _). intros j m. unfold over, on. split.
  - intros [K|[Hn K]]; [now left|]. right. split; [|assumption]. intros n [E _]. congruence.
  - intros [K|[Hn K]]; [now left|]. right. split; [|assumption]. intros ->. apply (Hn (mark_of t)). auto.
Qed.
Lemma over_node c r mk e t r' : marking c r mk -> t <> DISPLAY -> t <> OMISSION -> mark_node r e t = Ok r' ->
  n_type (hget (c_heap c) e) <> DOCUMENT /\ marking c r' (over mk (on (n_line (hget (c_heap c) e)) (mark_of t))).
Proof.
  intros HM T1 T2 H. unfold mark_node, r_heap in H. rewrite (mg_ctx _ _ _ HM) in H. apply bind_ok in H as (l & Hl & H). unfold node_line in Hl.
  assert (n_type (hget (c_heap c) e) <> DOCUMENT /\ l = n_line (hget (c_heap c) e)) as [Hd ->]
    by (destruct (n_type (hget (c_heap c) e)); try discriminate; injection Hl as <-; split; (discriminate || reflexivity)).
  split; [assumption|]. exact (over_line c r mk _ t r' HM T1 T2 H).
Qed.
Lemma over_none mk j m : over (fun _ _ => False) mk j m <-> mk j m.
Proof. unfold over. split; [intros [K|[_ []]]; exact K|now left]. Qed.
Lemma over_same mk a b m0 j m : over (over mk (on a m0)) (on b m0) j m <-> over mk (fun j m => (j = a \/ j = b) /\ m = m0) j m.
Proof.
  unfold over, on. split.
  - intros [[-> ->]|[H1 [[-> ->]|[H2 K]]]]; [left; auto|left; auto|]. right. split; [|assumption]. intros n [[->| ->] ->]; [apply (H2 m0); auto|apply (H1 m0); auto].
  - intros [[[->| ->] ->]|[H1 K]]; [|left; auto|].
    + destruct (Nat.eq_dec a b) as [->|Hne]; [left; auto|]. right. split; [intros n [E _]; congruence|left; auto].
    + right. split; [intros n [-> ->]; apply (H1 m0); auto|]. right. split; [intros n [-> ->]; apply (H1 m0); auto|assumption].
Qed.

Lemma last_of_last (l : list nat) x : last_of l = Ok x -> l <> [] /\ x = last l 0.
Proof.
  unfold last_of. destruct (rev l) as [|y r] eqn:E; [discriminate|]. intros [= ->]. assert (l = rev r ++ [x]) as -> by (rewrite <- (rev_involutive l), E; reflexivity).
  split; [intro K; destruct (rev r); discriminate|]. now rewrite last_last.
Qed.
Lemma index_of_split e (l : list nat) x l' : skipn (index_of e l) l = x :: l' -> exists l1, l = l1 ++ e :: l' /\ ~ In e l1 /\ x = e.
Proof.
  induction l as [|y l IH]; [discriminate|]. unfold index_of. fold index_of. destruct (Nat.eqb_spec e y) as [->|Hne].
  - cbn [skipn]. intros [= <- <-]. exists []. split; [reflexivity|]. split; [intros []|reflexivity].
  - cbn [skipn]. intro H. destruct (IH H) as (l1 & -> & H1 & ->). exists (y :: l1). split; [reflexivity|]. split; [|reflexivity]. intros [K|K]; [congruence|auto].
Qed.

Lemma same_rest (e : nat) : forall a b u v, a ++ e :: u = b ++ e :: v -> ~ In e a -> ~ In e b -> u = v.
Proof.
  induction a as [|z a IH]; intros [|w b] u v E Ha Hb; cbn in E.
  - now injection E as <-.
  - injection E as -> _. destruct Hb. now left.
  - injection E as -> _. destruct Ha. now left.
  - injection E as _ E. apply (IH b u v E); intro Q; [apply Ha|apply Hb]; now right.
Qed.

Section Faults.
  Context (inp : text) (loc : locale) (rk : reporter_kind) (src : option text).
  Local Notation mk := (MkCtx inp loc rk src).

  Lemma fault_covers p h meta lc : fault inp p h meta lc ->
    forall ix j s, build_index (mk h meta lc) = Ok ix -> In (j, s) (recorded (mk h meta lc)) -> ReporterFacts.covers ix j.
  Proof.
    intro Hf. pose proof (wf_fault inp loc rk src _ _ _ _ Hf) as Hwf. destruct Hf as [e st lc Ha|e st lc h Ha Hr].
    - pose proof (analyze_reach inp) as G. rewrite Ha in G. destruct G as (st0 & Hr & Hix & Hst). destruct (reach_inv _ _ Hr) as [HI _].
      pose proof (step_inv inp st0 HI ltac:(lia)) as HD. rewrite Hst in HD. destruct HD as [_ HD].
      apply (read_shown _ (a_heap st) Hwf HD); cbn [c_heap]; [split; auto|intro i; auto|]. intros i x Hi Hx. eauto.
    - pose proof (resolve_spec _ _ _ (analysed _ _ _ Ha)) as Hsp. rewrite Hr in Hsp. destruct Hsp as [_ Htx].
      pose proof (resolve_parts (a_heap st) (a_cs st) (a_cn st)) as Hp. rewrite Hr in Hp. pose proof (resolve_comments (a_heap st) (a_cs st) (a_cn st)) as Hcm. rewrite Hr in Hcm.
      exact (copied_covers inp loc rk src st lc h Ha Htx Hp Hcm Hwf).
  Qed.

  Lemma fault_marking p h meta lc r mks s : fault inp p h meta lc -> marking (mk h meta lc) r mks -> snippet r = Ok s -> (forall j m, mks j m <-> fault_marks h lc p j m) ->
    exists rows, laid_out lc (or_all (fault_marks h lc p)) (content (mk h meta lc)) rows /\ drawn rk loc src rows s.
  Proof.
    intros Hf HM Hs HI. apply (marking_iff _ _ _ _ HM) in HI.
    exact (marking_drawn (mk h meta lc) (wf_fault inp loc rk src _ _ _ _ Hf) (fault_covers _ _ _ _ Hf) r _ s HI (fault_drawables inp loc src p h meta lc rk r Hf (mg_ctx _ _ _ HI) (mg_index _ _ _ HI)) Hs).
  Qed.
  Lemma leaf_report p h meta lc l s : fault inp p h meta lc -> report (mk h meta lc) (fun r => report_leaf r l) = Ok s -> fault_marks h lc p = on (l_line l) Main ->
    exists rows, laid_out lc (or_all (fault_marks h lc p)) (content (mk h meta lc)) rows /\ drawn rk loc src rows s.
  Proof.
    intros Hf H E. unfold report in H. apply bind_ok in H as (r0 & H0 & H). apply bind_ok in H as (r1 & H1 & H). apply new_marking in H0.
    apply (over_line _ _ _ _ EMPHASIZE _ H0) in H1; [|discriminate|discriminate]. apply (fault_marking p h meta lc r1 _ s Hf H1 H). intros j m. rewrite over_none, E. reflexivity.
  Qed.
  Lemma node_report p h meta lc e s : fault inp p h meta lc -> report (mk h meta lc) (fun r => report_line r e) = Ok s -> fault_marks h lc p = on (n_line (hget h e)) Main ->
    exists rows, laid_out lc (or_all (fault_marks h lc p)) (content (mk h meta lc)) rows /\ drawn rk loc src rows s.
  Proof.
    intros Hf H E. unfold report in H. apply bind_ok in H as (r0 & H0 & H). apply bind_ok in H as (r1 & H1 & H). apply new_marking in H0.
    apply (over_node _ _ _ _ EMPHASIZE _ H0) in H1 as [_ H1]; [|discriminate|discriminate]. apply (fault_marking p h meta lc r1 _ s Hf H1 H). intros j m. rewrite over_none, E. reflexivity.
  Qed.
  Lemma built' t s sel x : build t s sel = Ok x -> s = Ok (er_snippet x).
  Proof. unfold build. intro H. apply bind_ok in H as (a & _ & H). apply bind_ok in H as (b & -> & H). apply bind_ok in H as (d & _ & H). now injection H as <-. Qed.

  (** the elements of a cycle, other than the one to blame *)
  Lemma cycle_marks c copy l : forall r mks r', marking c r mks -> foldM (fun r e => if Nat.eqb e copy then Ok r else indicate_line r e) l r = Ok r' ->
    marking c r' (over mks (fun j m => exists x, In x l /\ x <> copy /\ on (n_line (hget (c_heap c) x)) Part j m)).
  Proof.
    induction l as [|x l IH]; intros r mks r' HM H; cbn [foldM] in H.
    - injection H as <-. refine (marking_iff c _ _ _ HM _). intros j m. unfold over. split; [|intros [(y & [] & _)|[_ K]]; exact K]. intro K. right. split; [|assumption]. intros n (y & [] & _).
    - destruct (Nat.eqb_spec x copy) as [->|Hne]; cbn [bind] in H.
      + apply (IH r mks r' HM) in H. refine (marking_iff c _ _ _ H _). intros j m. unfold over. split; (intros [(y & Hy & Hc & K)|[Hn K]]).
        * left. exists y. split; [now right|]. auto.
        * right. split; [|assumption]. intros n (y & [<-|Hy] & Hc & Ho); [congruence|]. apply (Hn n). exists y. auto.
        * destruct Hy as [<-|Hy]; [congruence|]. left. exists y. auto.
        * right. split; [|assumption]. intros n (y & Hy & Hc & Ho). apply (Hn n). exists y. split; [now right|]. auto.
      + apply bind_ok in H as (r1 & H1 & H). apply (over_node c r mks x INDICATE r1 HM) in H1 as [_ H1]; [|discriminate|discriminate]. apply (IH r1 _ r' H1) in H. refine (marking_iff c _ _ _ H _).
        intros j m. unfold over, on. cbn [mark_of]. split.
        * intros [(y & Hy & Hc & K)|[Hn [[-> ->]|[Hn2 K]]]].
          -- left. exists y. split; [now right|]. auto.
          -- left. exists x. split; [now left|]. auto.
          -- right. split; [|assumption]. intros n (y & [<-|Hy] & Hc & Ho); [apply (Hn2 n); exact Ho|]. apply (Hn n). exists y. auto.
        * intros [(y & [<-|Hy] & Hc & [-> ->])|[Hn K]].
          -- destruct (in_dec Nat.eq_dec (n_line (hget (c_heap c) x)) (map (fun y => n_line (hget (c_heap c) y)) (filter (fun y => negb (Nat.eqb y copy)) l))) as [Hi|Hi].
             ++ left. apply in_map_iff in Hi as (y & E & Hy). apply filter_In in Hy as [Hy Hb]. exists y. split; [assumption|]. split; [|auto]. intros ->. now rewrite Nat.eqb_refl in Hb.
             ++ right. split; [|left; auto]. intros n (y & Hy & Hc' & E & _). apply Hi. apply in_map_iff. exists y. split; [now symmetry|]. apply filter_In. split; [assumption|]. destruct (Nat.eqb_spec y copy); [congruence|reflexivity].
          -- left. exists y. auto.
          -- right. split; [intros n (y & Hy & Hc & Ho); apply (Hn n); exists y; split; [now right|]; auto|]. right. split; [|assumption]. intros n Ho. apply (Hn n). exists x. split; [now left|]. auto.
  Qed.
  (** the rest of the text *)
  Lemma rest_marks c e ls : n_type (hget (c_heap c) e) <> DOCUMENT -> forall r mks r', marking c r mks ->
    foldM (fun r l => do el <- node_line (hget (c_heap c) e); if Nat.ltb el (l_line l) then indicate_leaf r l else Ok r) ls r = Ok r' ->
    (forall l, In l ls -> n_line (hget (c_heap c) e) < l_line l -> l_line l < c_line_count c) /\
    marking c r' (over mks (fun j m => (exists l, In l ls /\ j = l_line l) /\ n_line (hget (c_heap c) e) < j /\ m = Part)).
  Proof.
    intro Hd. assert (node_line (hget (c_heap c) e) = Ok (n_line (hget (c_heap c) e))) as En by (unfold node_line; destruct (n_type (hget (c_heap c) e)); (reflexivity || congruence)).
    rewrite En. cbn [bind]. clear En. induction ls as [|x ls IH]; intros r mks r' HM H; cbn [foldM] in H.
    - injection H as <-. split; [intros l []|]. refine (marking_iff c _ _ _ HM _). intros j m. unfold over. split; [|intros [((y & [] & _) & _)|[_ K]]; exact K]. intro K. right. split; [|assumption]. intros n ((y & [] & _) & _).
    - apply bind_ok in H as (r1 & H1 & H). destruct (Nat.ltb_spec (n_line (hget (c_heap c) e)) (l_line x)) as [Hlt|Hge].
      + assert (l_line x < c_line_count c) as Hx.
        { unfold indicate_leaf, mark_line in H1. apply bind_ok in H1 as (s & Hs & _). rewrite <- (mg_len _ _ _ HM). unfold aset in Hs. destruct (Nat.ltb_spec (l_line x) (length (r_snip r))); [assumption|discriminate]. }
        apply (over_line c r mks _ INDICATE r1 HM) in H1; [|discriminate|discriminate]. apply (IH r1 _ r' H1) in H as [H2 H]. split; [intros l [<-|Hl]; auto|]. refine (marking_iff c _ _ _ H _).
        intros j m. unfold over, on. cbn [mark_of]. split.
        * intros [((y & Hy & ->) & Hc & ->)|[Hn [[-> ->]|[Hn2 K]]]].
          -- left. split; [exists y; split; [now right|reflexivity]|auto].
          -- left. split; [exists x; split; [now left|reflexivity]|auto].
          -- right. split; [|assumption]. intros n ((y & [<-|Hy] & ->) & Hc & ->); [apply (Hn2 Part); auto|]. apply (Hn Part). split; [eauto|auto].
        * intros [((y & [<-|Hy] & ->) & Hc & ->)|[Hn K]].
          -- destruct (in_dec Nat.eq_dec (l_line x) (map l_line ls)) as [Hi|Hi].
             ++ left. apply in_map_iff in Hi as (y & E & Hy). split; [exists y; auto|auto].
             ++ right. split; [|left; auto]. intros n ((y & Hy & E) & _). apply Hi. rewrite E. now apply in_map.
          -- left. split; [exists y; auto|auto].
          -- right. split; [intros n ((y & Hy & E) & Hc); apply (Hn n); split; [exists y; split; [now right|assumption]|auto]|]. right. split; [|assumption].
             intros n [-> ->]. apply (Hn Part). split; [exists x; split; [now left|reflexivity]|auto].
      + injection H1 as <-. apply (IH r mks r' HM) in H as [H2 H]. split; [intros l [<-|Hl]; [lia|auto]|]. refine (marking_iff c _ _ _ H _). intros j m. unfold over. split; (intros [((y & Hy & E) & Hc)|[Hn K]]).
        * left. split; [exists y; split; [now right|assumption]|auto].
        * right. split; [|assumption]. intros n ((y & [<-|Hy] & E) & Hc & _); [lia|]. apply (Hn Part). split; [exists y; auto|auto].
        * destruct Hy as [<-|Hy]; [lia|]. left. split; [exists y; auto|auto].
        * right. split; [|assumption]. intros n ((y & Hy & E) & Hc). apply (Hn n). split; [exists y; split; [now right|assumption]|auto].
  Qed.

  Lemma endless_field e h meta lc : fault inp (PUnterminatedMultiline e) h meta lc ->
    n_type (hget h e) = MULTILINE_FIELD_BEGIN /\ n_lines (hget h e) = None /\ n_end (hget h e) = None /\
    forall j, n_line (hget h e) < j < lc -> exists l, In l meta /\ j = l_line l.
  Proof.
    intro Hf. remember (PUnterminatedMultiline e) as p eqn:Ep. destruct Hf as [p st lc Ha|p st lc h Ha Hr].
    - apply analyze_stopped in Ha as (st0 & Hr & Hix & Hst). destruct (reach_inv _ _ Hr) as [HI _]. destruct Hst as [i ls H1 H2 H3 H4|op k j i ls H1 H2 H3 H4 H5 H6].
      + exfalso. intuition congruence.
      + assert (length (a_heap st0) = e) as <- by congruence. rewrite H4. assert (a_lsec st0 < length (a_heap st0)) as Hsec by apply HI. rewrite app_upd_new by assumption.
        split; [reflexivity|]. split; [reflexivity|]. split; [reflexivity|]. cbn [n_line multiline_node set_comments set_key set_parent new_node]. intros j' Hj. rewrite H5.
        apply tokenize_spec in H3 as (K1 & _ & K3 & _). destruct (nth_error (i :: ls) (j' - S (a_line st0))) as [l|] eqn:El.
        * exists l. split; [apply in_or_app; right; exact (nth_error_In _ _ El)|]. rewrite (K3 _ _ El). lia.
        * apply nth_error_None in El. lia.
    - exfalso. pose proof (resolve_spec _ _ _ (analysed _ _ _ Ha)) as Hsp. rewrite Hr in Hsp. destruct Hsp as [Hce _]. subst p. inversion Hce.
  Qed.

  Theorem fault_marked p h meta lc x : fault inp p h meta lc -> parse_error (mk h meta lc) p = Ok x ->
    exists rows, laid_out lc (or_all (fault_marks h lc p)) (content (mk h meta lc)) rows /\ drawn rk loc src rows (er_snippet x).
  Proof.
    intros Hf H. destruct p as [l|l|l|l|l s|e|e|e|e chain|copy a b|e|e]; cbn [parse_error] in H; unfold leaf_error, node_error, two_or_more_templates_found in H.
    - unfold invalid_line in H. apply bind_ok in H as (lr & _ & H). destruct (match_at _ _ _) as [mo|]; [unfold unterminated_escaped_key in H|]; apply built' in H; now apply (leaf_report _ h meta lc l).
    - apply built' in H. now apply (leaf_report _ h meta lc l).
    - apply built' in H. now apply (leaf_report _ h meta lc l).
    - apply built' in H. now apply (leaf_report _ h meta lc l).
    - unfold section_hierarchy_layer_skip in H. apply bind_ok in H as (r0 & H0 & H). apply bind_ok in H as (r1 & H1 & H). apply bind_ok in H as (r2 & H2 & H). apply built' in H. apply new_marking in H0.
      apply (over_line _ _ _ _ EMPHASIZE _ H0) in H1; [|discriminate|discriminate]. cbn [c_heap] in H2. destruct (itype_eqb (n_type (hget h s)) DOCUMENT) eqn:Ed.
      + injection H2 as <-. assert (n_type (hget h s) = DOCUMENT) as Ty by (destruct (n_type (hget h s)); (reflexivity || discriminate)).
        apply (fault_marking _ h meta lc r1 _ _ Hf H1 H). intros j m. rewrite over_none. cbn [fault_marks]. unfold over. split; [intro K; right; split; [intros n [Q _]; congruence|assumption]|intros [[Q _]|[_ K]]; [congruence|exact K]].
      + assert (n_type (hget h s) <> DOCUMENT) as Ty by (intro Q; rewrite Q in Ed; discriminate). apply (over_node _ _ _ _ INDICATE _ H1) in H2 as [_ H2]; [|discriminate|discriminate].
        apply (fault_marking _ h meta lc r2 _ _ Hf H2 H). intros j m. cbn [fault_marks c_heap mark_of]. unfold over. split; (intros [K|[Hn K]]); [left; auto|right; split|left; apply K|right; split].
        * intros n [_ Q]. exact (Hn n Q).
        * destruct K as [K|[_ []]]. exact K.
        * intros n Q. exact (Hn n (conj Ty Q)).
        * now left.
    - destruct (endless_field _ _ _ _ Hf) as (T1 & T2 & T3 & T4). unfold unterminated_multiline_field in H. apply bind_ok in H as (r0 & H0 & H). apply bind_ok in H as (r1 & H1 & H). apply bind_ok in H as (r2 & H2 & H). apply built' in H. apply new_marking in H0.
      unfold report_element in H1. apply bind_ok in H1 as (r3 & H3 & H1). apply (over_node _ _ _ _ EMPHASIZE _ H0) in H3 as [Hd H3]; [|discriminate|discriminate].
      assert (r1 = r3) as ->.
      { unfold r_heap in H1. rewrite (mg_ctx _ _ _ H3) in H1. cbn [c_heap] in H1. unfold tfuel in H1. cbn [tag_element] in H1. rewrite T1, T2, T3 in H1. cbn [bind] in H1. injection H1 as <-. unfold with_snip. destruct r3; reflexivity. }
      apply (rest_marks (mk h meta lc) e meta Hd r3 _ r2 H3) in H2 as [Hb H2]. cbn [c_heap c_line_count] in Hb, H2.
      apply (fault_marking _ h meta lc r2 _ _ Hf H2 H). intros j m. cbn [fault_marks c_heap mark_of].
      assert (forall n, (exists l, In l meta /\ j = l_line l) /\ n_line (hget h e) < j /\ n = Part <-> n_line (hget h e) < j < lc /\ n = Part) as Q.
      { intro n. split; [intros ((l & Hl & ->) & Q1 & ->); auto|]. intros [Q1 ->]. split; [now apply T4|]. split; [lia|reflexivity]. }
      unfold over. split; (intros [K|[Hn K]]); [left; now apply Q|right; split|left; now apply Q|right; split].
      + intros n K'. apply (Hn n). now apply Q.
      + destruct K as [K|[_ []]]. exact K.
      + intros n K'. apply (Hn n). now apply Q.
      + now left.
    - apply built' in H. now apply (node_report _ h meta lc e).
    - apply built' in H. now apply (node_report _ h meta lc e).
    - unfold cyclic_dependency in H. cbv zeta in H. apply bind_ok in H as (lst & Hl & H). apply bind_ok in H as (fst & Hfst & H). apply bind_ok in H as (copy & Hc & H). apply bind_ok in H as (r0 & H0 & H).
      apply bind_ok in H as (r1 & H1 & H). apply bind_ok in H as (r2 & H2 & H). apply built' in H. apply new_marking in H0. apply last_of_last in Hl as [_ Hl].
      destruct (skipn (index_of e chain) chain) as [|y l2] eqn:Es; [discriminate|]. injection Hfst as ->. destruct (index_of_split _ _ _ _ Es) as (l1 & El & Hn & ->).
      apply (over_node _ _ _ _ EMPHASIZE _ H0) in H1 as [_ H1]; [|discriminate|discriminate]. apply (cycle_marks _ copy (e :: l2) r1 _ r2 H1) in H2.
      apply (fault_marking _ h meta lc r2 _ _ Hf H2 H). intros j m. cbn [fault_marks c_heap mark_of] in *. 
      assert (n_template (hget h (last (e :: l2) 0)) <> None /\ copy = last (e :: l2) 0 \/ n_template (hget h (last (e :: l2) 0)) = None /\ copy = e) as Hcopy.
      { rewrite <- Hl. destruct (n_template (hget h lst)) as [t|]; cbn [opt_is] in Hc; [injection Hc as <-; left; split; [discriminate|reflexivity]|]. right. split; [reflexivity|]. destruct (opt_is (n_template (hget h e))); [now injection Hc as <-|discriminate]. }
      assert (forall k n, over (over (fun _ _ => False) (on (n_line (hget h copy)) Main)) (fun j m => exists x, In x (e :: l2) /\ x <> copy /\ on (n_line (hget h x)) Part j m) k n <->
        over (on (n_line (hget h copy)) Main) (fun j m => exists x, In x (e :: l2) /\ x <> copy /\ on (n_line (hget h x)) Part j m) k n) as Q.
      { intros k n. unfold over at 1 3. now rewrite over_none. }
      rewrite Q. split.
      + intro K. exists l1, l2. split; [assumption|]. split; [assumption|]. exists copy. auto.
      + intros (l1' & l2' & El' & Hn' & copy' & Hcopy' & K).
        assert (l2' = l2) as -> by exact (same_rest e l1' l1 l2' l2 ltac:(congruence) Hn' Hn). assert (copy' = copy) as -> by (destruct Hcopy as [[? ->]|[? ->]], Hcopy' as [[? ->]|[? ->]]; congruence). exact K.
    - apply built' in H. unfold report in H. apply bind_ok in H as (r0 & H0 & H). apply bind_ok in H as (r3 & H1 & H). apply bind_ok in H1 as (r1 & H1 & H2). apply bind_ok in H2 as (r2 & H2 & H3). apply new_marking in H0.
      apply (over_node _ _ _ _ EMPHASIZE _ H0) in H1 as [_ H1]; [|discriminate|discriminate]. apply (over_node _ _ _ _ QUESTION _ H1) in H2 as [_ H2]; [|discriminate|discriminate].
      apply (over_node _ _ _ _ QUESTION _ H2) in H3 as [_ H3]; [|discriminate|discriminate]. apply (fault_marking _ h meta lc r3 _ _ Hf H3 H). intros j m. cbn [fault_marks c_heap mark_of]. rewrite over_same. unfold over at 1 3. now rewrite over_none.
    - apply built' in H. now apply (node_report _ h meta lc e).
    - apply built' in H. now apply (node_report _ h meta lc e).
  Qed.

  Theorem parse_marked x : parse_context inp loc rk src = Raise (ParseError x) -> exists p h meta lc rows, fault inp p h meta lc /\
    laid_out lc (or_all (fault_marks h lc p)) (content (mk h meta lc)) rows /\ drawn rk loc src rows (er_snippet x).
  Proof.
    intro H. apply parse_raise in H as [(p & h & meta & lc & Hf & He)|[H _]]; [|discriminate]. destruct (parse_error (mk h meta lc) p) as [y|y] eqn:E.
    - injection He as ->. destruct (fault_marked _ _ _ _ _ Hf E) as (rows & H1 & H2). exists p, h, meta, lc, rows. auto.
    - exfalso. subst y. destruct (fault_prints inp loc rk src _ _ _ _ Hf) as [(st & e' & prev & _ & _ & _ & _ & _ & _ & H3)|[[z Hz]|[_ Hz]]]; congruence.
  Qed.
End Faults.
