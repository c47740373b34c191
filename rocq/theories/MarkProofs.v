(** MarkProofs: which lines the reports about documents mark. *)
From Verif Require Import Base Regex Grammar Types Messages Scan Analyzer TokenStep ScanProofs ScanFacts StepProofs HeapFacts AnalyzerInv AnalyzerLoop StepChange SpecText AnalyzerText AnalyzerTiles AnalyzerBlocks
  AnalyzerLines AnalyzerFinal AnalyzerBounds SpecTree AnalyzerTree Resolver SpecResolve ResolverIndex ResolverFields ResolverSections ResolverFinal ResolverComments NumberOrder
  Reporter Errors Context Faults SpecLookup LookupDoc LookupProofs ReporterFacts ReporterTags ParseErrors ParseContext ParseOutcome SelectProofs PrintDoc PrintProofs PropAnalysisProofs
  SpecSnippet SnippetRows SnippetCover ReporterFree SpecDraw DrawProofs DrawDoc SpecMarks LineOrder TagProofs LayoutProofs.

(** a reporter on [c] with marks [mk] *)
Record marking (c : ctx) (r : reporter) (mk : nat -> mark -> Prop) : Prop := {
  mg_ctx : r_ctx r = c;
  mg_index : build_index c = Ok (r_index r);
  mg_len : length (r_snip r) = c_line_count c;
  mg_proper : proper (r_snip r);
  mg_marks : marks_are (r_snip r) mk
}.

Lemma line_content_range c ri t : rget (ri_ranges ri) R_line <> None -> line_content c ri = Ok t -> t = at_range (c_input c) (line_range (ri_ranges ri)).
Proof. unfold line_content, line_range. destruct (rget (ri_ranges ri) R_line) as [[b e]|]; [|congruence]. intros _ [= <-]. reflexivity. Qed.

Section Report.
  Context (c : ctx) (Hwf : WF c).
  Local Notation h := (c_heap c).
  Context (HC : forall ix j s, build_index c = Ok ix -> In (j, s) (recorded c) -> ReporterFacts.covers ix j).

  Lemma source_recorded j ri : source_of c j ri -> In (j, line_range (ri_ranges ri)) (recorded c).
  Proof.
    unfold source_of, recorded, heap_nums. intros [(i & Hi & <- & ->)|[(i & l & Hi & Hl & <- & ->)|(l & Hl & <- & ->)]]; apply in_or_app.
    - left. apply in_flat_map. exists (hget h i). split; [now apply hget_in|]. rewrite node_nums_hanging. apply in_or_app. right. now left.
    - left. apply in_flat_map. exists (hget h i). split; [now apply hget_in|]. rewrite node_nums_hanging. rewrite hanging_rest in Hl. apply in_or_app.
      apply in_app_or in Hl as [Hl|Hl]; [left|right; right]; exact (in_map leaf_num _ l Hl).
    - right. exact (in_map leaf_num _ l Hl).
  Qed.
  Lemma content_ok r j t : r_ctx r = c -> build_index c = Ok (r_index r) -> content_at r j = Ok t -> content c j t.
  Proof.
    intros Hr Hb H. unfold content_at in H. rewrite Hr in H. destruct (build_index_ok _ Hwf) as (ix & E & [_ Hix] & _). assert (ix = r_index r) as -> by congruence.
    unfold info_at in H. destruct (nth_error (r_index r) j) as [[ri|]|] eqn:En.
    - left. specialize (Hix _ _ En). destruct (source_range _ Hwf _ _ Hix) as [Hl _]. exists (line_range (ri_ranges ri)). split; [now apply source_recorded|]. now apply line_content_range.
    - right. injection H as <-. split; [|reflexivity]. intros s Hs. destruct (HC _ _ _ Hb Hs) as [ri Hri]. congruence.
    - right. injection H as <-. split; [|reflexivity]. intros s Hs. destruct (HC _ _ _ Hb Hs) as [ri Hri]. congruence.
  Qed.

  Theorem marking_drawn r mk s : marking c r mk -> drawables r -> snippet r = Ok s ->
    exists rows, laid_out (c_line_count c) (or_all mk) (content c) rows /\ drawn (c_reporter c) (c_locale c) (c_source c) rows s.
  Proof.
    intros [M1 M2 M3 M4 M5] Hd Hs.
    assert (rrt (c_reporter c) r = r) as Er by (unfold rrt; rewrite M1; destruct r as [rc ri rs]; cbn in M1; subst rc; destruct c; reflexivity).
    assert (forall rows, rows_of r = Ok rows -> laid_out (c_line_count c) (or_all mk) (content c) rows) as K.
    { intros rows Hw. rewrite <- M1. apply (rows_laid r); rewrite ?M1; auto. intros j t. now apply content_ok. }
    destruct (c_reporter c) eqn:Ek; cbn [drawn].
    - pose proof (text_draws r) as D. rewrite Er, M1 in D. destruct (rows_of r) as [ws|]; [|congruence]. destruct D as (s' & E' & D). assert (s' = s) as -> by congruence. eauto.
    - pose proof (html_draws r) as D. rewrite Er, M1 in D. destruct (rows_of r) as [ws|]; [|congruence]. destruct D as (s' & E' & D). assert (s' = s) as -> by congruence. eauto.
    - pose proof (terminal_draws r s Hd) as D. rewrite Er, M1 in D. destruct (D Hs) as (ws & Hw & D'). eauto.
  Qed.

  (** * Marks *)

  Lemma new_marking r : new_reporter c = Ok r -> marking c r (fun _ _ => False).
  Proof.
    unfold new_reporter. intro H. apply bind_ok in H as (ix & Hb & H). injection H as <-. split; cbn [r_ctx r_index r_snip]; auto.
    - apply repeat_length.
    - intros j t Hj. apply nth_error_In, repeat_spec in Hj. discriminate.
    - intro j. destruct (nth_error _ j) as [[t|]|] eqn:E; auto. apply nth_error_In, repeat_spec in E. discriminate.
  Qed.
  (** marking lines, over what was marked before *)
  Lemma marking_over r mk s' mk' : marking c r mk -> length s' = length (r_snip r) ->
    (forall j, nth_error s' j = nth_error (r_snip r) j /\ (forall m, mk' j m <-> mk j m) \/ exists t, nth_error s' j = Some (Some t) /\ t <> DISPLAY /\ t <> OMISSION /\ mk' j (mark_of t)) -> marking c (with_snip r s') mk'.
  Proof.
    intros [M1 M2 M3 M4 M5] HL HJ. split; cbn [with_snip r_ctx r_index r_snip]; auto; [congruence| |].
    - intros j t Hj. destruct (HJ j) as [[E _]|(t' & E & T)]; [apply (M4 j); congruence|]. assert (t' = t) as -> by congruence. tauto.
    - intro j. destruct (HJ j) as [[E HI]|(t' & E & _ & _ & T)].
      + rewrite E. specialize (M5 j). destruct (nth_error (r_snip r) j) as [[t|]|]; try (now apply HI); intros m Hm; apply HI in Hm; exact (M5 m Hm).
      + now rewrite E.
  Qed.
  Lemma mark_line_marking r mk l t r' : marking c r mk -> t <> DISPLAY -> t <> OMISSION -> mark_line r l t = Ok r' ->
    marking c r' (fun j m => j = l /\ m = mark_of t \/ j <> l /\ mk j m).
  Proof.
    intros HM T1 T2 H. unfold mark_line in H. apply bind_ok in H as (s & Hs & H). injection H as <-. apply aset_sets in Hs as (L1 & I1 & O1). apply (marking_over r mk); auto.
    intro j. destruct (Nat.eq_dec j l) as [->|Hne].
    - right. exists t. split; [apply I1; lia|]. auto.
    - left. split; [apply O1; lia|]. intro m. tauto.
  Qed.
  Lemma marking_iff r mk mk' : marking c r mk -> (forall j m, mk j m <-> mk' j m) -> marking c r mk'.
  Proof.
    intros [M1 M2 M3 M4 M5] HI. split; auto. intro j. specialize (M5 j). destruct (nth_error (r_snip r) j) as [[t|]|]; try (now apply HI); intros m Hm; apply HI in Hm; exact (M5 m Hm).
  Qed.
  Lemma leaves_marking ls : forall r mk r', marking c r mk -> foldM report_leaf ls r = Ok r' ->
    marking c r' (fun j m => (exists l, In l ls /\ j = l_line l) /\ m = Main \/ (forall l, In l ls -> j <> l_line l) /\ mk j m).
  Proof.
    induction ls as [|l ls IH]; intros r mk r' HM H; cbn [foldM] in H.
    - injection H as <-. apply (marking_iff r mk); [assumption|]. intros j m. split; [intro K; right; split; [intros l []|assumption]|]. intros [[(l & [] & _) _]|[_ K]]. exact K.
    - apply bind_ok in H as (r1 & H1 & H). apply (mark_line_marking r mk) in H1; [|assumption|discriminate|discriminate]. apply (IH _ _ _ H1) in H. refine (marking_iff _ _ _ H _).
      intros j m. split.
      + intros [[(x & Hx & ->) ->]|[Hn [[-> ->]|[Hne K]]]].
        * left. split; [exists x; split; [now right|reflexivity]|reflexivity].
        * left. split; [exists l; split; [now left|reflexivity]|reflexivity].
        * right. split; [|assumption]. intros x [<-|Hx]; auto.
      + intros [[(x & [<-|Hx] & ->) ->]|[Hn K]].
        * destruct (in_dec Nat.eq_dec (l_line l) (map l_line ls)) as [Hi|Hi].
          -- left. split; [|reflexivity]. apply in_map_iff in Hi as (y & E & Hy). exists y. auto.
          -- right. split; [|left; auto]. intros y Hy E. apply Hi. rewrite E. now apply in_map.
        * left. split; [eauto|reflexivity].
        * right. split; [intros x Hx; apply Hn; now right|]. right. split; [apply Hn; now left|assumption].
  Qed.
End Report.

(** * All that is recorded is shown *)

Lemma read_shown c h0 : WF c -> DInv h0 -> same_text h0 (c_heap c) -> kept_parts h0 (c_heap c) ->
  (forall i x, 0 < i < length h0 -> In x (node_nums (hget (c_heap c) i)) -> exists k, 0 < k < length h0 /\ In x (node_nums (hget h0 k))) ->
  forall ix j s, build_index c = Ok ix -> In (j, s) (recorded c) -> ReporterFacts.covers ix j.
Proof.
  intros Hwf HD Htx Hp HN ix j s Hb Hin. unfold recorded in Hin. destruct (build_index_ok _ Hwf) as (ix' & E & _ & B1 & B2). assert (ix' = ix) as -> by congruence.
  apply in_app_or in Hin as [Hin|Hin]; [|apply in_map_iff in Hin as (l & [= <- _] & Hl); exact (B2 l Hl)].
  apply B1. unfold heap_nums in Hin. apply in_flat_map in Hin as (n & Hn & Hin).
  assert (exists i, 0 < i < length (c_heap c) /\ n = hget (c_heap c) i) as (i & Hi & ->).
  { apply (In_nth _ _ document_node) in Hn as (k & Hk & <-). exists (S k). destruct (c_heap c) as [|d r]; cbn [tl length] in *; [lia|]. split; [lia|reflexivity]. }
  destruct (HN i (j, s)) as (k & Hk & Hink); [destruct Htx; lia|assumption|].
  apply (read_covers c Hwf h0 HD Htx Hp k j s); [destruct Htx; lia|assumption].
Qed.
Lemma copied_covers inp loc rk src st lc r : analyze inp = AOk st lc -> same_text (a_heap st) r -> kept_parts (a_heap st) r -> comments_from (a_heap st) r ->
  WF (MkCtx inp loc rk src r (a_meta st) lc) ->
  forall ix j s, build_index (MkCtx inp loc rk src r (a_meta st) lc) = Ok ix -> In (j, s) (recorded (MkCtx inp loc rk src r (a_meta st) lc)) -> ReporterFacts.covers ix j.
Proof.
  intros Ha Htx Hp Hcm Hwf. apply (read_shown _ (a_heap st) Hwf (an_d _ _ _ (analysed _ _ _ Ha)) Htx Hp). cbn [c_heap]. intros i x Hi Hin.
  rewrite node_nums_hanging in Hin. apply in_app_or in Hin as [Hin|Hin].
  - destruct (Hcm i) as [k Ek]. rewrite Ek in Hin. pose proof (analysed_comments _ _ _ Ha) as H0. exists k.
    assert (0 < k < length (a_heap st)) as Hk; [|split; [assumption|rewrite node_nums_hanging; apply in_or_app; now left]].
    destruct (Nat.eq_dec k 0) as [->|]; [rewrite (H0 0) in Hin by auto; destruct Hin|]. destruct (le_lt_dec (length (a_heap st)) k); [rewrite (H0 k) in Hin by auto; destruct Hin|lia].
  - exists i. destruct (text_rest _ _ (proj2 Htx i)) as (E1 & E2 & E3 & _). rewrite E1, E2, E3 in Hin. split; [assumption|]. rewrite node_nums_hanging. apply in_or_app. now right.
Qed.

(** marks of several elements, the later ones prevailing *)
Definition listed_marks (h : heap) (es : list nat) (j : nat) (m : mark) : Prop :=
  exists l1 e l2, es = l1 ++ e :: l2 /\ element_marks h e j m /\ forall x n, In x l2 -> ~ element_marks h x j n.

Section Complaints.
  Context {inp : text} {loc : locale} {rk : reporter_kind} {src : option text} {c : ctx} (HP : parse_context inp loc rk src = Ok c).
  Local Notation h := (c_heap c).
  Local Notation nd x := (hget h x).
  Let Hwf : WF c := wf_parse inp loc rk src c HP.
  Let L : LDoc inp h := parsed_doc HP.

  Lemma parsed_covers ix j s : build_index c = Ok ix -> In (j, s) (recorded c) -> ReporterFacts.covers ix j.
  Proof.
    pose proof HP as HP'. apply parse_ok in HP' as (st & lc & r & Ha & Hr & Ec). pose proof Hwf as Hwf'. subst c.
    pose proof (resolve_spec _ _ _ (analysed _ _ _ Ha)) as Hsp. rewrite Hr in Hsp.
    pose proof (resolve_parts (a_heap st) (a_cs st) (a_cn st)) as Hp. rewrite Hr in Hp. pose proof (resolve_comments (a_heap st) (a_cs st) (a_cn st)) as Hcm. rewrite Hr in Hcm.
    exact (copied_covers inp loc rk src st lc r Ha (rs_text _ _ Hsp) Hp Hcm Hwf' ix j s).
  Qed.

  Lemma not_document e : n_type (nd e) <> DOCUMENT -> 0 < e < length h.
  Proof.
    intro H. split.
    - destruct e; [|lia]. exfalso. apply H. pose proof (s_doc _ (ld_s _ _ L)) as Hd. unfold ncls in Hd. destruct (n_type (nd 0)); (reflexivity || discriminate).
    - destruct (Nat.lt_ge_cases e (length h)); [assumption|]. exfalso. apply H. unfold hget. rewrite nth_overflow by lia. reflexivity.
  Qed.
  Lemma node_marking r mk e t r' : marking c r mk -> t <> DISPLAY -> t <> OMISSION -> mark_node r e t = Ok r' ->
    0 < e < length h /\ marking c r' (fun j m => j = n_line (nd e) /\ m = mark_of t \/ j <> n_line (nd e) /\ mk j m).
  Proof.
    intros HM T1 T2 H. unfold mark_node, r_heap in H. rewrite (mg_ctx _ _ _ HM) in H. apply bind_ok in H as (l & Hl & H). unfold node_line in Hl.
    assert (n_type (nd e) <> DOCUMENT /\ l = n_line (nd e)) as [Hd ->] by (destruct (n_type (nd e)); try discriminate; injection Hl as <-; split; (discriminate || reflexivity)).
    split; [now apply not_document|]. exact (mark_line_marking c r mk _ t r' HM T1 T2 H).
  Qed.
  Lemma inside_iff e hi j : tops (line_of h e) hi -> inside h e j <-> n_line (nd e) < j < hi.
  Proof.
    intros [(k & Hk & ->) HB]. unfold inside. split.
    - intros [J1 (m & Hm & Hj)]. split; [assumption|]. apply HB in Hm. lia.
    - intros [J1 J2]. split; [assumption|]. exists k. split; [assumption|lia].
  Qed.
  Lemma element_marking r mk e r' : marking c r mk -> report_element r e = Ok r' ->
    marking c r' (fun j m => element_marks h e j m \/ (forall n, ~ element_marks h e j n) /\ mk j m).
  Proof.
    intros HM H. unfold report_element in H. apply bind_ok in H as (r1 & H1 & H). apply (node_marking r mk) in H1 as [He H1]; [|assumption|discriminate|discriminate].
    unfold r_heap in H. rewrite (mg_ctx _ _ _ H1) in H. apply bind_ok in H as ([s sc] & H2 & H). injection H as <-. apply (tag_element_lines HP) in H2 as (hi & HT & (L1 & I1 & O1) & _); [|assumption|reflexivity].
    pose proof (fun j => inside_iff e hi j HT) as Hin. apply (marking_over c r1 _ s _ H1 L1). intro j. destruct (Nat.lt_ge_cases (n_line (nd e)) j) as [J1|J1]; [destruct (Nat.lt_ge_cases j hi) as [J2|J2]|].
    - right. exists INDICATE. split; [apply I1; lia|]. split; [discriminate|]. split; [discriminate|]. left. apply em_part. now apply Hin.
    - left. split; [apply O1; lia|]. intro m. split; [|intros [[-> _]|[_ K]]; [lia|]].
      + intros [K|[_ K]]; [|right; split; [lia|assumption]]. destruct K as [|j Hj]; [lia|]. apply Hin in Hj. lia.
      + right. split; [|assumption]. intros n K'. destruct K' as [|j Hj]; [lia|]. apply Hin in Hj. lia.
    - left. split; [apply O1; lia|]. intro m. destruct (Nat.eq_dec j (n_line (nd e))) as [->|Hne].
      + split; [intros [K|[K _]]|intros [[_ ->]|[K _]]].
        * destruct K as [|j Hj]; [left; auto|]. apply Hin in Hj. lia.
        * destruct (K Main). constructor.
        * left. constructor.
        * congruence.
      + split; [intros [K|[_ K]]|intros [[-> _]|[_ K]]].
        * destruct K as [|j Hj]; [congruence|]. apply Hin in Hj. lia.
        * auto.
        * congruence.
        * right. split; [|assumption]. intros n K'. destruct K' as [|j Hj]; [congruence|]. apply Hin in Hj. lia.
  Qed.
  Lemma elements_marking es r r' : marking c r (fun _ _ => False) -> report_elements r es = Ok r' -> marking c r' (listed_marks h es).
  Proof.
    unfold report_elements. intro HM0. assert (forall l2 l1 r, marking c r (listed_marks h l1) -> foldM report_element l2 r = Ok r' -> marking c r' (listed_marks h (l1 ++ l2))) as K.
    { clear r HM0. induction l2 as [|e l2 IH]; intros l1 r HM H; cbn [foldM] in H.
      - injection H as <-. now rewrite app_nil_r.
      - apply bind_ok in H as (r1 & H1 & H). apply (element_marking r _ e r1 HM) in H1. replace (l1 ++ e :: l2) with ((l1 ++ [e]) ++ l2) by (rewrite <- app_assoc; reflexivity).
        apply (IH _ r1); [|assumption]. refine (marking_iff c _ _ _ H1 _). intros j m. unfold listed_marks. split.
        + intros [K|[Hn (a & x & b & -> & K & Kb)]].
          * exists l1, e, []. split; [reflexivity|]. split; [assumption|]. intros x n [].
          * exists a, x, (b ++ [e]). split; [now rewrite <- app_assoc|]. split; [assumption|]. intros y n Hy. apply in_app_or in Hy as [Hy|[<-|[]]]; auto.
        + intros (a & x & b & El & K & Kb). destruct b as [|y b _] using rev_ind.
          * apply app_inj_tail in El as [-> ->]. now left.
          * assert (l1 ++ [e] = (a ++ x :: b) ++ [y]) as El' by (rewrite <- app_assoc; exact El). apply app_inj_tail in El' as [-> ->].
            right. split; [intros n; apply Kb; apply in_or_app; right; now left|]. exists a, x, b. split; [reflexivity|]. split; [assumption|]. intros z n Hz. apply Kb. apply in_or_app. now left. }
    apply (K es []). refine (marking_iff c _ _ _ HM0 _). intros j m. split; [intros []|]. intros ([|? ?] & x & b & El & _); discriminate.
  Qed.

  Lemma before_unique p l l' : before_sections h p l -> before_sections h p l' -> l = l'.
  Proof.
    intros (a & E & N & A) (a' & E' & N' & A'). rewrite E in E'. clear E. revert l' E' N'. induction l as [|x l IH]; intros l' E' N'.
    - destruct l' as [|y l']; [reflexivity|]. cbn in E'. subst a. cbn in A. destruct (N' y); [now left|assumption].
    - destruct l' as [|y l']; cbn in E'.
      + subst a'. destruct (N x); [now left|assumption].
      + injection E' as -> E'. f_equal. apply IH; auto; intros z Hz; [apply N|apply N']; now right.
  Qed.
  Lemma missing_marking p r r' : marking c r (fun _ _ => False) -> report_missing_element r p = Ok r' -> marking c r' (missing_marks h p).
  Proof.
    intros HM H. unfold report_missing_element, r_heap in H. rewrite (mg_ctx _ _ _ HM) in H. apply bind_ok in H as (r1 & H1 & H).
    destruct (itype_eqb (n_type (nd p)) DOCUMENT) eqn:Ed.
    - injection H1 as <-. assert (n_type (nd p) = DOCUMENT) as Et by (destruct (n_type (nd p)); (reflexivity || discriminate)). rewrite Et in H. cbn [itype_eqb tag_element] in H. unfold tfuel in H. cbn [tag_element] in H.
      rewrite (mg_ctx _ _ _ HM) in H. rewrite Et in H. cbn [bind] in H. injection H as <-. 
      apply (marking_over c r _ _ _ HM eq_refl). intro j. left. split; [reflexivity|]. intro m. split; [|intros []]. intro K. destruct K; congruence.
    - assert (n_type (nd p) <> DOCUMENT) as Nd by (intro Q; rewrite Q in Ed; discriminate). pose proof (not_document p Nd) as Hp.
      apply (mark_line_marking c r _ _ INDICATE r1 HM) in H1; [|discriminate|discriminate]. rewrite (mg_ctx _ _ _ H1) in H. destruct (itype_eqb (n_type (nd p)) SECTION) eqn:Es.
      + assert (n_type (nd p) = SECTION) as Et by (destruct (n_type (nd p)); (reflexivity || discriminate)). apply bind_ok in H as (s & H2 & H). injection H as <-.
        apply (tag_flat_lines HP) in H2 as (l & hi & HB & (F1 & F2 & F3) & Hhi & HE); [|assumption|assumption].
        assert (forall j, n_line (nd p) < j -> j < hi <-> ((exists x k, In x l /\ line_of h x k /\ j <= k) \/ (exists s, first_section h p s /\ j < n_line (nd s)))) as Hiff.
        { intros j Hj. destruct HE as [[[(k & Hk & ->) HT] ->]|(x & l2 & El & Ex & ->)].
          - split.
            + intro J. left. destruct Hk as [[->|(lf & Hl & _)]|(y & Hy & Hk)]; [lia| |exists y, k; split; [assumption|split; [assumption|lia]]].
              destruct (ld_shape _ _ L p ltac:(lia)) as (_ & _ & _ & Hsh). rewrite Et in Hsh. destruct Hsh as ((Y1 & Y2 & Y3 & Y4) & Y5). unfold rest in Hl. rewrite Y3, Y4, Y5 in Hl. destruct Hl.
            + intros [(x & m & Hx & Hm & Hle)|(s0 & (l0 & l2 & El & HB0) & _)].
              * assert (m < S k) by (apply HT; right; eauto). lia.
              * exfalso. rewrite (before_unique p _ _ HB0 HB) in El. apply (f_equal (@length nat)) in El. rewrite app_length in El. cbn in El. lia.
          - split; [intro J; right; exists x; split; [exists l, l2; auto|assumption]|].
            intros [(y & m & Hy & Hm & Hle)|(s0 & (l0 & l3 & El0 & HB0) & J)].
            + assert (forall z, In z (n_elements (nd p)) -> n_parent (nd z) = Some p) as Hpar by (intros z Hz; apply (elem_child HP p z); [lia|assumption]).
              assert (m < n_line (nd x)); [|lia]. apply (line_before HP p y x m); [apply Hpar; rewrite El; apply in_or_app; now left|apply Hpar; rewrite El; apply in_or_app; right; now left| |assumption].
              apply (sorted_split l x l2); [|assumption]. rewrite <- El, (ld_elems _ _ L p ltac:(lia)). apply ids_sorted.
            + rewrite (before_unique p _ _ HB0 HB) in El0. rewrite El in El0. apply app_inv_head in El0. injection El0 as -> _. assumption. }
        assert (forall x j, In x l -> inside h x j -> n_line (nd p) < j) as Hgt.
        { intros x j Hx [J _]. destruct HB as (l2 & El & _). assert (n_parent (nd x) = Some p) as Hpx by (apply (elem_child HP p x); [lia|]; rewrite El; apply in_or_app; now left).
          destruct (parent_range _ (ld_s _ _ L) _ _ Hpx) as (R & Lt & _). pose proof (own_before HP p x (n_line (nd p)) ltac:(lia) ltac:(lia) (or_introl eq_refl)). lia. }
        apply (marking_over c r1 _ s _ H1 F1). intro j. destruct (Nat.lt_ge_cases (n_line (nd p)) j) as [J1|J1]; [destruct (Nat.lt_ge_cases j hi) as [J2|J2]|].
        * right. destruct (F3 j ltac:(lia)) as [[(x & Hx & Hi) F]|[Hn F]].
          -- exists QUESTION. split; [assumption|]. split; [discriminate|]. split; [discriminate|]. exact (mm_element h p l x j Et HB Hx Hi).
          -- exists INDICATE. split; [assumption|]. split; [discriminate|]. split; [discriminate|]. apply (mm_between h p l j Et HB J1 Hn). now apply Hiff.
        * left. split; [apply F2; lia|]. intro m. split; [|intros [[-> _]|[_ []]]; lia]. intro K. exfalso. destruct K as [|j _ Q|l' x j _ HB' Hx [_ (k & Hk & Hle)]|l' j _ HB' _ _ HK]; [lia|congruence| |].
          -- rewrite (before_unique p _ _ HB' HB) in Hx. assert (j < hi); [|lia]. apply Hiff; [assumption|]. left. eauto.
          -- rewrite (before_unique p _ _ HB' HB) in HK. apply (Hiff j J1) in HK. lia.
        * left. split; [apply F2; lia|]. intro m. split.
          -- intro K. destruct K as [|j _ Q|l' x j _ HB' Hx Hi|l' j _ HB' J _ HK]; [left; auto|congruence| |lia]. rewrite (before_unique p _ _ HB' HB) in Hx. pose proof (Hgt _ _ Hx Hi). lia.
          -- intros [[-> ->]|[_ []]]. now apply mm_self.
      + assert (n_type (nd p) <> SECTION) as Ns by (intro Q; rewrite Q in Es; discriminate). apply bind_ok in H as ([s sc] & H2 & H). injection H as <-.
        apply (tag_element_lines HP) in H2 as (hi & HT & (L1 & I1 & O1) & _); [|assumption|contradiction]. pose proof (fun j => inside_iff p hi j HT) as Hin.
        apply (marking_over c r1 _ s _ H1 L1). intro j. destruct (Nat.lt_ge_cases (n_line (nd p)) j) as [J1|J1]; [destruct (Nat.lt_ge_cases j hi) as [J2|J2]|].
        * right. exists QUESTION. split; [apply I1; lia|]. split; [discriminate|]. split; [discriminate|]. apply mm_asked; auto. apply Hin. lia.
        * left. split; [apply O1; lia|]. intro m. split; [|intros [[-> _]|[_ []]]; lia]. intro K. exfalso. destruct K as [|j _ _ Hj| |]; [lia| |congruence|congruence]. apply Hin in Hj. lia.
        * left. split; [apply O1; lia|]. intro m. split.
          -- intro K. destruct K as [|j _ _ Hj| |]; [left; auto| |congruence|congruence]. apply Hin in Hj. lia.
          -- intros [[-> ->]|[_ []]]. now apply mm_self.
  Qed.

  (** * Complaints *)

  Lemma report_marked f s mk : report c f = Ok s -> (forall r r', marking c r (fun _ _ => False) -> f r = Ok r' -> marking c r' mk) ->
    exists rows, laid_out (c_line_count c) (or_all mk) (content c) rows /\ drawn (c_reporter c) (c_locale c) (c_source c) rows s.
  Proof.
    intros H Hf. unfold report in H. apply bind_ok in H as (r0 & H0 & H). apply bind_ok in H as (r & H1 & H). apply new_marking in H0. specialize (Hf _ _ H0 H1).
    apply (marking_drawn c Hwf parsed_covers r mk s Hf); [|assumption]. apply (parsed_drawables HP r (mg_ctx _ _ _ Hf) (mg_index _ _ _ Hf)).
  Qed.
  Lemma built t s sel x : build t s sel = Ok x -> s = Ok (er_snippet x).
  Proof. intro H. unfold build in H. apply bind_ok in H as (t0 & _ & H). apply bind_ok in H as (s0 & -> & H). apply bind_ok in H as (sel0 & _ & H). injection H as <-. reflexivity. Qed.
  Lemma laid_iff lc mk mk' cont rows : (forall j m, mk j m <-> mk' j m) -> laid_out lc (or_all mk) cont rows -> laid_out lc (or_all mk') cont rows.
  Proof.
    intros HI (cells & H1 & H2 & H3). exists cells. split; [assumption|]. split; [assumption|]. intros j Hj. specialize (H3 j Hj).
    assert (forall j m, or_all mk j m <-> or_all mk' j m) as HO.
    { intros k m. unfold or_all. rewrite HI. split; (intros [K|[K ->]]; [now left|right; split; [|reflexivity]]; intros a b; rewrite HI || rewrite <- HI; apply K). }
    assert (forall j, marked (or_all mk) j <-> marked (or_all mk') j) as HM by (intro k; unfold marked; split; intros [m Hm]; exists m; now apply HO).
    assert (near (or_all mk) j <-> near (or_all mk') j) as HN by (unfold near; split; intros (k & Hk & Q); exists k; (split; [now apply HM|assumption])).
    destruct H3; [apply cell_marked; [now apply HO|assumption]|apply cell_near|apply cell_dots|apply cell_hidden]; rewrite <- ?HM, <- ?HN; auto.
  Qed.
  Lemma marked_as f s mk mk' : report c f = Ok s -> (forall r r', marking c r (fun _ _ => False) -> f r = Ok r' -> marking c r' mk) -> (forall j m, mk j m <-> mk' j m) ->
    exists rows, laid_out (c_line_count c) (or_all mk') (content c) rows /\ drawn rk loc src rows s.
  Proof.
    intros H Hf HI. destruct (report_marked f s mk H Hf) as (rows & R1 & R2). exists rows. split; [now apply (laid_iff _ mk)|]. clear - HP R2. apply parse_ok in HP as (st & lc & r & _ & _ & ->). exact R2.
  Qed.
  Lemma element_case e s mk' : report c (fun r => report_element r e) = Ok s -> (forall j m, element_marks h e j m <-> mk' j m) ->
    exists rows, laid_out (c_line_count c) (or_all mk') (content c) rows /\ drawn rk loc src rows s.
  Proof.
    intros H HI. refine (marked_as _ s _ mk' H (fun r r' HM => element_marking r _ e r' HM) _). intros j m. rewrite <- HI. split; [intros [K|[_ []]]; assumption|now left].
  Qed.
  Lemma line_case e s (mk' : nat -> mark -> Prop) : report c (fun r => report_line r e) = Ok s -> (forall j m, j = n_line (nd e) /\ m = Main <-> mk' j m) ->
    exists rows, laid_out (c_line_count c) (or_all mk') (content c) rows /\ drawn rk loc src rows s.
  Proof.
    intros H HI. refine (marked_as _ s (fun j m => j = n_line (nd e) /\ m = Main) mk' H _ HI). intros r r' HM Hr. apply (node_marking r _ e EMPHASIZE r' HM) in Hr as [_ Hr]; [|discriminate|discriminate].
    refine (marking_iff c _ _ _ Hr _). intros j m. cbn [mark_of]. split; [intros [K|[_ []]]; assumption|now left].
  Qed.
  Lemma comment_apart e l : 0 < e < length h -> In l (olist (n_comments (nd e))) -> l_line l <> n_line (nd e).
  Proof.
    intros He Hl E. assert (source_of c (n_line (nd e)) (leaf_info l)) as Hs.
    { right. left. exists e, l. split; [assumption|]. split; [rewrite hanging_rest; apply in_or_app; now left|]. auto. }
    assert (leaf_info l = node_info (nd e)) as Ei.
    { pose proof HP as HP'. apply parse_ok in HP' as (st & lc & r & Ha & Hr & Ec). subst c. cbn [c_heap c_meta] in *.
      pose proof (resolve_spec _ _ _ (analysed _ _ _ Ha)) as Hsp. rewrite Hr in Hsp. pose proof (resolve_comments (a_heap st) (a_cs st) (a_cn st)) as Hcm. rewrite Hr in Hcm.
      exact (source_unique (a_heap st) r (a_meta st) (or_nodup _ (final_nums _ _ _ Ha)) (rs_text _ _ Hsp) Hcm (analysed_comments _ _ _ Ha) inp loc rk src lc e _ He Hs). }
    pose proof (pd_comments _ _ (pdoc_parse HP) e) as Hc. unfold comments_typed in Hc. rewrite Forall_forall in Hc. specialize (Hc l Hl). unfold leaf_info, node_info in Ei. rewrite Hc in Ei. injection Ei as Et _.
    destruct (kind HP e He) as [_ (_ & _ & _ & Hk)]. rewrite <- Et in Hk. exact Hk.
  Qed.
  Lemma commented_range m e x : validation_error c (BadComment m e) = Ok x -> 0 < e < length h.
  Proof.
    cbn [validation_error]. unfold v_comment_error. intro H. apply built in H. unfold report in H. apply bind_ok in H as (r0 & H0 & H). apply new_marking in H0. apply bind_ok in H as (r1 & H1 & _).
    unfold report_comments in H1. apply bind_ok in H1 as (r2 & H2 & _). apply (node_marking r0 _ e INDICATE r2 H0) in H2 as [He _]; [assumption|discriminate|discriminate].
  Qed.
  Theorem complaint_marked v x : validation_error c v = Ok x ->
    exists rows, laid_out (c_line_count c) (or_all (complaint_marks h v)) (content c) rows /\ drawn rk loc src rows (er_snippet x).
  Proof.
    intro H. destruct v as [m e|m e|m e|m e|e|key p q|e|m e|key es q|key e q]; cbn [validation_error] in H;
      unfold v_comment_error, v_element_error, v_key_error, v_missing_comment, v_missing_element, v_unexpected_element, v_unexpected_multiple_elements, v_unexpected_element_type in H.
    - pose proof (commented_range m e x H) as He. apply built in H.
      refine (marked_as _ _ (fun j m => (exists l, In l (olist (n_comments (nd e))) /\ j = l_line l) /\ m = Main \/ (forall l, In l (olist (n_comments (nd e))) -> j <> l_line l) /\ j = n_line (nd e) /\ m = Part) _ H _ _).
      + intros r r' HM Hr. unfold report_comments in Hr. apply bind_ok in Hr as (r1 & Hr1 & Hr). apply (node_marking r _ e INDICATE r1 HM) in Hr1 as [_ Hr1]; [|discriminate|discriminate].
        unfold r_heap in Hr. rewrite (mg_ctx _ _ _ Hr1) in Hr. destruct (n_comments (nd e)) as [cs|]; [|discriminate]. apply (leaves_marking c cs _ _ _ Hr1) in Hr. refine (marking_iff c _ _ _ Hr _).
        intros j k. cbn [olist mark_of]. split; (intros [K|[K1 K2]]; [now left|right; split; [assumption|]]); [destruct K2 as [K2|[_ []]]; exact K2|now left].
      + intros j k. split.
        * intros [[(l & Hl & ->) ->]|[_ [-> ->]]]; constructor. exact Hl.
        * inversion 1; subst; [left; split; [eexists; split; [eassumption|reflexivity]|reflexivity]|]. right. split; [|auto]. intros l Hl E. exact (comment_apart e l He Hl (eq_sym E)).
    - apply built in H. apply (element_case e _ _ H). intros j k. split; [apply cm_element|now inversion 1].
    - apply built in H. apply (line_case e _ _ H). intros j k. split; [intros [-> ->]; constructor|now inversion 1].
    - unfold v_value_error in H. cbv zeta in H. destruct (n_mirror (nd e)) as [t|] eqn:Em; cbn [opt_is] in H.
      + apply bind_ok in H as (s & Hs & H). apply bind_ok in H as (sel & _ & H). injection H as <-. apply (line_case e _ _ Hs). intros j k. split; [intros [-> ->]; apply cm_copy; congruence|inversion 1; subst; [auto|congruence|congruence]].
      + destruct (itype_eqb (n_type (nd e)) MULTILINE_FIELD_BEGIN) eqn:Et.
        * assert (n_type (nd e) = MULTILINE_FIELD_BEGIN) as Ty by (destruct (n_type (nd e)); (reflexivity || discriminate)). destruct (n_lines (nd e)) as [ls|] eqn:El.
          -- apply bind_ok in H as (s & Hs & H). apply bind_ok in H as (sel & _ & H). injection H as <-. 
             refine (marked_as _ _ (fun j m => (exists l, In l ls /\ j = l_line l) /\ m = Main) _ Hs _ _).
             ++ intros r r' HM Hr. unfold report_multiline_value, r_heap in Hr. rewrite (mg_ctx _ _ _ HM), El in Hr. apply (leaves_marking c ls _ _ _ HM) in Hr. refine (marking_iff c _ _ _ Hr _).
                intros j k. split; [intros [K|[_ []]]; assumption|now left].
             ++ intros j k. split; [intros [(l & Hl & ->) ->]; exact (cm_lines h m e ls l Em Ty El Hl)|]. inversion 1; subst; [congruence| |intuition congruence]. split; [|reflexivity]. eexists. split; [|reflexivity]. congruence.
          -- apply bind_ok in H as (s & Hs & H). apply bind_ok in H as (sel & _ & H). injection H as <-. apply (element_case e _ _ Hs). intros j k. split; [apply cm_value; auto|inversion 1; subst; congruence].
        * assert (n_type (nd e) <> MULTILINE_FIELD_BEGIN) as Ty by (intro Q; rewrite Q in Et; discriminate). apply bind_ok in H as (s & Hs & H). apply bind_ok in H as (sel & _ & H). injection H as <-.
          apply (element_case e _ _ Hs). intros j k. split; [apply cm_value; auto|inversion 1; subst; congruence].
    - apply built in H. apply (line_case e _ _ H). intros j k. split; [intros [-> ->]; constructor|now inversion 1].
    - apply built in H. refine (marked_as _ _ _ _ H (fun r r' HM => missing_marking p r r' HM) _). intros j k. split; [apply cm_missing|now inversion 1].
    - unfold v_missing_value in H. apply bind_ok in H as (mf & _ & H). apply bind_ok in H as (s & Hs & H). apply bind_ok in H as (to & _ & H). destruct mf as [[t f]|]; [|discriminate]. injection H as <-.
      apply (element_case e _ _ Hs). intros j k. split; [apply cm_no_value|now inversion 1].
    - apply built in H. apply (element_case e _ _ H). intros j k. split; [apply cm_unexpected|now inversion 1].
    - apply built in H. refine (marked_as _ _ _ _ H (fun r r' HM => elements_marking es r r' HM) _). intros j k. split; [intros (l1 & e & l2 & El & K1 & K2); exact (cm_many h key es q l1 e l2 j k El K1 K2)|].
      inversion 1; subst. exists l1, e, l2. auto.
    - apply built in H. apply (element_case e _ _ H). intros j k. split; [apply cm_kind|now inversion 1].
  Qed.
End Complaints.
