(** CountSelect: the line numbers of selections miss exactly the line feeds inside instructions. *)
From Verif Require Import Base Regex Grammar Types Messages Scan Analyzer HeapFacts AnalyzerInv SpecText AnalyzerText AnalyzerTiles AnalyzerLines AnalyzerFinal AnalyzerBounds SpecTree AnalyzerTree
  Resolver SpecResolve ResolverIndex ResolverFields ResolverSections ResolverFinal ResolverComments StepChange TokenStep ScanProofs ScanFacts AnalyzerLoop ReadLinks
  NumberOrder SpecCount CountProofs
  Reporter Errors Context Elements Session Faults SpecLookup SpecSelect SpecRead SpecApi Reads ReporterFacts ReporterTags ParseErrors ParseContext ParseOutcome SpecErrors ParseTexts PropAnalysisProofs
  LookupDoc LookupProofs CommentLines RegexBounds SelectProofs ApiDoc ApiInv ApiState ApiOps SessionInv SessionRun PropLookupProofs FaultProofs PropErrorsProofs.

Definition Tally (inp : text) (own : list (nat * nat)) (h : heap) (meta : list leaf) : Prop :=
  (forall x, 0 < x < length h -> Forall (count_ok inp own) (node_nums (hget h x))) /\
  (forall l, In l meta -> nested inp (l_ranges l) -> count_ok inp own (leaf_num l)).

Lemma reach_tally inp st : SpecRun.reach inp st -> Tally inp (own_lines (a_heap st)) (a_heap st) (a_meta st ++ olist (a_comments st)).
Proof.
  intros Hr. destruct (reach_count _ _ Hr) as [_ _ C]. unfold all_nums in C. rewrite Forall_app, <- map_app, Forall_map, !Forall_forall in C. destruct C as [C1 C2]. split.
  - intros x Hx. rewrite Forall_forall. intros p Hp. apply C1. unfold heap_nums. apply in_flat_map. exists (hget (a_heap st) x). split; [now apply hget_in|assumption].
  - intros l Hl _. now apply C2.
Qed.
Lemma tally_resolved inp own h0 h meta : same_text h0 h -> comments_from h0 h -> (forall k, k = 0 \/ length h0 <= k -> n_comments (hget h0 k) = None) ->
  Tally inp own h0 meta -> Tally inp own h meta.
Proof.
  intros [Hl Ht] Hc H0 [T1 T2]. split; [|assumption]. intros x Hx. rewrite Hl in Hx. destruct (text_rest _ _ (Ht x)) as (E1 & E2 & E3 & _).
  pose proof (T1 x Hx) as N1. rewrite node_nums_hanging in *. rewrite E1, E2, E3, !Forall_app in *.
  destruct (Hc x) as [k Hk]. rewrite Hk. destruct (le_lt_dec (length h0) k); [rewrite (H0 k) by auto; cbn [olist map]; intuition|].
  destruct (Nat.eq_dec k 0); [rewrite (H0 k) by auto; cbn [olist map]; intuition|].
  pose proof (T1 k ltac:(lia)) as M1. rewrite node_nums_hanging in M1. rewrite !Forall_app in *. tauto.
Qed.
Lemma own_same h0 h : same_text h0 h -> own_lines h = own_lines h0.
Proof.
  intros [Hl Ht]. assert (forall l l' : heap, length l = length l' -> (forall x, n_ranges (nth x l document_node) = n_ranges (nth x l' document_node)) ->
    map (fun n => line_range (n_ranges n)) l = map (fun n => line_range (n_ranges n)) l') as K.
  { induction l as [|a l IH]; intros [|b l'] Hn He; try discriminate; [reflexivity|]. cbn [map]. pose proof (He 0) as H0. cbn [nth] in H0. rewrite H0. f_equal.
    apply IH; [now injection Hn|]. intro x. exact (He (S x)). }
  unfold own_lines. apply K.
  - destruct h, h0; cbn in *; lia.
  - intro x. destruct (text_rest _ _ (Ht (S x))) as (_ & E & _). unfold hget in E. destruct h, h0; cbn in Hl; try lia; [reflexivity|exact E].
Qed.

Lemma tokenized_tally inp own fuel index line first ls lc : tokenize_error inp fuel index line first = Some (ls, lc) -> begins_line inp index \/ length inp < index ->
  (forall s, In s own -> fst s < index) ->
  line + feeds_inside inp own index = lines_before inp index -> forall l, In l ls -> nested inp (l_ranges l) -> count_ok inp own (leaf_num l).
Proof.
  intros Ht Hb Ho Hl l Hin Hn. apply tokenize_spec in Ht as (K1 & K2 & K3 & K4 & K5 & K6 & K7).
  destruct (Nat.le_gt_cases index (length inp)) as [Hi|Hi].
  - assert (begins_line inp index) as Hb' by (destruct Hb; [assumption|lia]). specialize (K7 Hi Hb'). rewrite Forall_forall in K7.
    assert (Forall (fun lf => single_line inp (leaf_line lf)) ls) as Hsg by (rewrite Forall_forall; intros x Hx; apply (K7 x Hx)).
    destruct (tiles_count inp own index ls (S (length inp)) line (K5 Hi) Hsg K3 Ho Hl) as [N _].
    rewrite Forall_forall in N. apply N. now apply (in_map leaf_num _ l).
  - specialize (K6 Hi). exfalso. apply (in_map leaf_line) in Hin. rewrite K6 in Hin. destruct Hin as [Hin|[]].
    destruct Hn as (b & e & E & H1 & _). unfold leaf_line, line_range in Hin. rewrite E in Hin. injection Hin as <- <-. lia.
Qed.

Lemma feeds_inside_single inp l s i : single_line inp s -> feeds_inside inp (l ++ [s]) i = feeds_inside inp l i.
Proof. intro H. rewrite feeds_inside_app. cbn [feeds_inside]. rewrite (inner_single _ _ H). destruct (Nat.ltb _ _); lia. Qed.

(** the context of an error in the analysis *)
Lemma stopped_tally inp e st lc : analyze inp = AErr e st lc -> Tally inp (own_lines (a_heap st)) (a_heap st) (a_meta st).
Proof.
  intros Ha. destruct (analyze_stopped _ _ _ _ Ha) as (st0 & Hr & Hix & Hst). destruct (reach_inv _ _ Hr) as [HI _].
  destruct (reach_text _ _ Hr) as [T1 _ _ _]. specialize (T1 ltac:(lia)).
  destruct (reach_tally _ _ Hr) as [U1 U2]. destruct (reach_count _ _ Hr) as [U3 U4 _].
  destruct Hst as [i ls H1 H2 H3 H4|op k j i ls H1 H2 H3 H4 H5 H6].
  - rewrite H2, H3. split; [assumption|]. intros l Hl Hn. apply in_app_iff in Hl as [Hl|Hl].
    + apply U2; [|assumption]. apply in_or_app. now left.
    + refine (tokenized_tally _ _ _ _ _ _ _ _ H1 (or_introl T1) _ U3 l Hl Hn). intros s Hs. now apply U4.
  - assert (a_lsec st0 < length (a_heap st0)) as Hsec by apply HI. pose proof (s_len _ (i_s _ _ _ _ _ HI)) as Hlen.
    assert (a_heap st0 <> []) as Hne0 by (destruct (a_heap st0); [cbn in *; lia|discriminate]).
    assert (hget (a_heap st) (length (a_heap st0)) = multiline_node inp st0 j op k) as Hg by (rewrite H4; now apply app_upd_new).
    assert (length (a_heap st) = S (length (a_heap st0))) as Hl1 by (rewrite H4, app_upd_length; lia).
    assert (forall x, x < length (a_heap st0) -> stat (hget (a_heap st) x) = stat (hget (a_heap st0) x) /\ rest (hget (a_heap st) x) = rest (hget (a_heap st0) x)) as Hold.
    { intros x Hx. rewrite H4. unfold app_upd. destruct (Nat.eq_dec (a_lsec st0) x) as [->|Hne].
      - rewrite hget_upd_eq by (rewrite app_length; cbn; lia). unfold hget. rewrite app_nth1 by assumption. split; reflexivity.
      - rewrite hget_upd_neq by assumption. unfold hget. rewrite app_nth1 by assumption. split; reflexivity. }
    destruct (scan_ok inp (a_index st0) _ j ltac:(lia) H1) as (Hie & Hle & Htok). pose proof (proj1 (line_end_ends _ _) Hle) as [Hjl Hje].
    assert (single_line inp (a_index st0, j)) as Hsj by exact (scan_single inp _ _ _ H1).
    assert (own_lines (a_heap st) = own_lines (a_heap st0) ++ [(a_index st0, j)]) as Ho.
    { change (a_index st0, j) with (line_range (n_ranges (multiline_node inp st0 j op k))). rewrite H4, !own_lines_over. apply (over_app_upd _ own_ext); auto; repeat split; auto. }
    assert (forall x, count_ok inp (own_lines (a_heap st0)) x -> count_ok inp (own_lines (a_heap st)) x) as Hk.
    { intros x Hx. unfold count_ok in *. rewrite Ho, feeds_inside_single; assumption. }
    split.
    + intros x Hx. eapply Forall_impl; [exact Hk|]. destruct (Nat.eq_dec x (length (a_heap st0))) as [->|Hne].
      * rewrite Hg, node_nums_hanging. change (rest (multiline_node inp st0 j op k)) with (@nil leaf). change (olist (n_comments (multiline_node inp st0 j op k))) with (olist (a_comments st0)).
        change (n_line (multiline_node inp st0 j op k), line_range (n_ranges (multiline_node inp st0 j op k))) with (a_line st0, (a_index st0, j)).
        apply Forall_app. split; [|constructor; [|constructor]].
        -- rewrite Forall_map, Forall_forall. intros l Hl. apply (U2 l). { apply in_or_app. now right. }
           destruct (reach_text _ _ Hr) as [_ _ _ T4]. rewrite Forall_forall in T4. apply (T4 l Hl).
        -- unfold count_ok. cbn [fst snd]. rewrite U3. apply lines_before_in. lia.
      * destruct (Hold x ltac:(lia)) as [E1 E2]. rewrite node_nums_hanging, E2, (stat_comments _ _ E1), (stat_line _ _ E1), (stat_ranges _ _ E1).
        rewrite <- node_nums_hanging. apply U1. lia.
    + rewrite H5. intros l Hl Hn. apply Hk. apply in_app_iff in Hl as [Hl|Hl].
      * apply U2; [|assumption]. apply in_or_app. now left.
      * refine (tokenized_tally _ _ _ _ _ _ _ _ H3 _ _ _ l Hl Hn).
        -- destruct (Nat.eq_dec j (length inp)) as [->|Hne]; [right; lia|left]. destruct Hje as [Hje|Hje]; [congruence|]. right. replace (S j - 1) with j by lia. exact Hje.
        -- intros s Hs. apply U4 in Hs. lia.
        -- rewrite (lines_next inp (a_index st0) j); [|lia|lia|exact Hje|exact Hsj]. rewrite (feeds_inside_all inp _ (a_index st0)); [lia| |lia]. intros s Hs. now apply U4.
Qed.
Lemma final_tally inp st lc : analyze inp = AOk st lc -> Tally inp (own_lines (a_heap st)) (a_heap st) (a_meta st).
Proof.
  intros Ha. destruct (final_reach _ _ _ Ha) as (st0 & Hr & _ & Eh & Em & _). rewrite Eh, Em, flush_eq. exact (reach_tally _ _ Hr).
Qed.

Section Counted.
  Context (c : ctx) (Hwf : WF c) (own : heap) (HT : Tally (c_input c) (own_lines own) (c_heap c) (c_meta c)).
  Lemma source_counted i cu : source c i -> spot i cu -> counted (c_input c) own cu.
  Proof.
    intros Hi (ln & p & El & Hp & ->). pose proof (source_nested c Hwf i Hi) as (b & e & E & H1 & H2 & H3 & _).
    assert (count_ok (c_input c) (own_lines own) (ln, line_range (i_ranges i))) as Hk.
    { destruct HT as [T1 T2]. destruct Hi as [(x & Hx & [->|(l & Hl & ->)])|(l & Hl & Hn & ->)].
      - pose proof (T1 x Hx) as N1. revert El. unfold node_ins. cbn [i_line i_ranges]. destruct (itype_eqb _ _); [discriminate|]. intros [= <-].
        rewrite Forall_forall in N1. apply (N1 (_, _)). rewrite node_nums_hanging. apply in_or_app. right. now left.
      - pose proof (T1 x Hx) as N1. rewrite Forall_forall in N1. injection El as <-.
        apply (N1 (_, _)). rewrite node_nums_hanging. rewrite hanging_rest in Hl. apply in_app_iff in Hl as [Hl|Hl]; apply in_or_app.
        + left. now apply (in_map leaf_num _ l).
        + right. right. now apply (in_map leaf_num _ l).
      - injection El as <-. exact (T2 l Hl Hn). }
    unfold line_range in *. rewrite E in *. cbn [fst snd] in *. exists b. cbn. split; [assumption|]. split; [lia|]. split; [lia|]. exact Hk.
  Qed.
  Lemma marks_counted s : marks c s -> selects (counted (c_input c) own) s.
  Proof. intros (i & j & Hi & Hj & Si & Sj & Hle). split; [|split; [|exact Hle]]; [exact (source_counted i _ Hi Si)|exact (source_counted j _ Hj Sj)]. Qed.
End Counted.

Lemma feeds_inside_0 inp l : feeds_inside inp l 0 = 0.
Proof. induction l as [|s l IH]; cbn [feeds_inside]; [reflexivity|]. now rewrite IH. Qed.
Lemma begin_counted inp h : selects (counted inp h) DOCUMENT_BEGIN.
Proof.
  assert (counted inp h (MkCursor 0 0 0)) as H.
  { exists 0. cbn [cu_index cu_column cu_line]. unfold swallowed. rewrite feeds_inside_0. repeat split; [now left|lia]. }
  split; [exact H|]. split; [exact H|]. reflexivity.
Qed.

Theorem parse_counted : forall inp loc rk src x, parse_context inp loc rk src = Raise (ParseError x) ->
  selects (counted inp (read_so_far inp)) (er_selection x).
Proof.
  intros inp loc rk src x H. apply parse_raise in H as [(p & h & meta & lc & Hf & He)|[H _]]; [|discriminate].
  destruct (parse_error (MkCtx inp loc rk src h meta lc) p) as [y|y] eqn:E; [injection He as ->|].
  - pose proof (wf_fault inp loc rk src _ _ _ _ Hf) as Hwf.
    apply (marks_counted (MkCtx inp loc rk src h meta lc) Hwf (read_so_far inp)); [|exact (parse_marks _ Hwf p y (fault_leaf _ _ _ _ _ _ _ _ Hf) E)].
    cbn [c_input c_heap c_meta]. unfold read_so_far. destruct Hf as [e st lc Ha|e st lc h Ha Hr]; rewrite Ha.
    + exact (stopped_tally _ _ _ _ Ha).
    + pose proof (resolve_spec _ _ _ (analysed _ _ _ Ha)) as Hsp. rewrite Hr in Hsp. destruct Hsp as [_ Ht].
      pose proof (resolve_comments (a_heap st) (a_cs st) (a_cn st)) as Hc. rewrite Hr in Hc.
      apply (tally_resolved inp _ (a_heap st)); [exact Ht|exact Hc|exact (analysed_comments _ _ _ Ha)|exact (final_tally _ _ _ Ha)].
  - exfalso. subst y. destruct (fault_prints inp loc rk src _ _ _ _ Hf) as [(st & e' & prev & _ & _ & _ & _ & _ & _ & H3)|[[z Hz]|[_ Hz]]]; congruence.
Qed.
Theorem complaint_counted : forall inp loc rk src c, parse_context inp loc rk src = Ok c -> forall v x,
  validation_error c v = Ok x -> selects (counted inp (c_heap c)) (er_selection x).
Proof.
  intros inp loc rk src c HP v x H. pose proof (wf_parse inp loc rk src c HP) as Hwf. destruct (parsed_sdoc HP) as [HS H0]. pose proof (pf_input (facts HP)) as Hi.
  destruct (validation_marks c Hwf HS v x H0 H) as [Hm| ->]; [|apply begin_counted].
  rewrite <- Hi. apply (marks_counted c Hwf); [|exact Hm]. rewrite Hi.
  pose proof (proj1 (parse_ok inp loc rk src c) HP) as (st & lc & r & Ha & Hr & Ec).
  assert (c_heap c = r /\ c_meta c = a_meta st) as (Eh & Em) by (subst c; auto). rewrite Eh, Em in *. clear Ec.
  pose proof (resolve_comments (a_heap st) (a_cs st) (a_cn st)) as Hc. rewrite Hr in Hc. cbn in Hc.
  pose proof (resolve_spec _ _ _ (analysed _ _ _ Ha)) as Hsp. rewrite Hr in Hsp. pose proof (rs_text _ _ Hsp) as Ht.
  rewrite (own_same _ _ Ht). apply (tally_resolved inp _ (a_heap st)); [exact Ht|exact Hc|exact (analysed_comments _ _ _ Ha)|exact (final_tally _ _ _ Ha)].
Qed.
