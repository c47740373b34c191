(** LaidProofs: C53. *)
From Verif Require Import Base Regex Grammar Types Scan ScanProofs Analyzer TokenStep ScanFacts StepProofs HeapFacts AnalyzerInv AnalyzerLoop StepChange SpecText SpecTree SpecRun AnalyzerText AnalyzerTiles
  AnalyzerLines AnalyzerFinal AnalyzerBlocks Context LookupDoc PropAnalysisProofs SpecLaid ScanLaid.

Ltac same_ranges :=
  let x := fresh "x" in intro x; unfold tfield_ranges, tentry_ranges, tcopy_ranges, tsection_ranges, deep_op; cbn [In app orange fst snd];
  split; [intro; split; [tauto|]|];
  [repeat match goal with H : _ \/ _ |- _ => destruct H as [H|H] | H : False |- _ => destruct H end; subst x; cbn [fst]; try destruct (Nat.eqb _ _); discriminate
  |intros [? ?]; repeat match goal with H : _ \/ _ |- _ => destruct H as [H|H] end; subst; cbn [fst] in *; tauto].
Ltac lay l := eexists; eexists; exists l; split; [reflexivity|]; split; [same_ranges|].

Section Lines.
  Context (inp : text).

  Lemma field_laid st e k op v : laid inp (a_index st) (token_spans (TField k op v)) e -> laid_out inp (tfield_ranges (a_index st) e k op v).
  Proof.
    intro H. destruct k as [s|b s x], v as [v|]; cbn [token_spans kspans ospan app] in H.
    - lay [(R_key, s); (R_element_operator, op); (R_value, v)]. exact H.
    - lay [(R_key, s); (R_element_operator, op)]. exact H.
    - lay [(R_escape_begin_operator, b); (R_key, s); (R_escape_end_operator, x); (R_element_operator, op); (R_value, v)]. exact H.
    - lay [(R_escape_begin_operator, b); (R_key, s); (R_escape_end_operator, x); (R_element_operator, op)]. exact H.
  Qed.
  Lemma entry_laid st e k op v : laid inp (a_index st) (token_spans (TEntry k op v)) e -> laid_out inp (tentry_ranges (a_index st) e k op v).
  Proof.
    intro H. destruct k as [s|b s x], v as [v|]; cbn [token_spans kspans ospan app] in H.
    - lay [(R_key, s); (R_entry_operator, op); (R_value, v)]. exact H.
    - lay [(R_key, s); (R_entry_operator, op)]. exact H.
    - lay [(R_escape_begin_operator, b); (R_key, s); (R_escape_end_operator, x); (R_entry_operator, op); (R_value, v)]. exact H.
    - lay [(R_escape_begin_operator, b); (R_key, s); (R_escape_end_operator, x); (R_entry_operator, op)]. exact H.
  Qed.
  Lemma copy_laid st e k op t : laid inp (a_index st) (token_spans (TCopy k op t)) e -> laid_out inp (tcopy_ranges (a_index st) e k op t).
  Proof.
    intro H. destruct k as [s|b s x]; cbn [token_spans kspans app] in H.
    - lay [(R_key, s); (R_copy_operator, op); (R_template, t)]. exact H.
    - lay [(R_escape_begin_operator, b); (R_key, s); (R_escape_end_operator, x); (R_copy_operator, op); (R_template, t)]. exact H.
  Qed.
  Lemma section_laid st e op k t : laid inp (a_index st) (token_spans (TSection op k t)) e -> laid_out inp (tsection_ranges (a_index st) e op k t).
  Proof.
    intro H. destruct k as [s|b s x], t as [[o t]|]; cbn [token_spans kspans stail_spans app] in H.
    - lay [(R_section_operator, op); (R_key, s); (if deep_op (Some (o, t)) then R_deep_copy_operator else R_copy_operator, o); (R_template, t)]. exact H.
    - lay [(R_section_operator, op); (R_key, s)]. exact H.
    - lay [(R_section_operator, op); (R_escape_begin_operator, b); (R_key, s); (R_escape_end_operator, x); (if deep_op (Some (o, t)) then R_deep_copy_operator else R_copy_operator, o); (R_template, t)]. exact H.
    - lay [(R_section_operator, op); (R_escape_begin_operator, b); (R_key, s); (R_escape_end_operator, x)]. exact H.
  Qed.
  Lemma single_laid b e nm op nm' v : nm <> R_line -> nm' <> R_line -> laid inp b (op :: ospan v) e -> laid_out inp ((R_line, (b, e)) :: (nm, op) :: orange nm' v).
  Proof.
    intros N1 N2 H. exists b, e, ((nm, op) :: orange nm' v). split; [reflexivity|]. split.
    - intro x. split; [intro Hx; split; [now right|]|intros [[<-|Hx] Hn]; [now elim Hn|exact Hx]].
      destruct v as [v|]; cbn in Hx; [destruct Hx as [<-|[<-|[]]]; assumption|destruct Hx as [<-|[]]; assumption].
    - destruct v; exact H.
  Qed.

  Definition leaf_laid (l : leaf) : Prop := laid_out inp (l_ranges l).
  Lemma closing_laid i r op key o k e line : at_pos inp i r -> closing_line op key i r = Some (o, k, e) -> leaf_laid (end_leaf line i e o k).
  Proof.
    intros Hat. unfold closing_line. destruct (Regex.strip_prefix op (after_spaces r)) as [r1|] eqn:E1; [|discriminate].
    destruct (match r1 with c :: _ => _ | [] => _ end); [discriminate|].
    destruct (Regex.strip_prefix key (after_spaces r1)) as [r2|] eqn:E2; [|discriminate].
    destruct (forallb hspace (line_of r2)) eqn:E3; [|discriminate]. intros [= <- <- <-].
    apply strip_prefix_app in E1. apply strip_prefix_app in E2. pose proof (gap_spaces inp _ _ Hat) as G1. apply at_pos_spaces in Hat. rewrite E1 in Hat.
    destruct (at_pos_app _ _ _ _ Hat) as [Hat1 _]. pose proof (gap_spaces inp _ _ Hat1) as G2. apply at_pos_spaces in Hat1. rewrite E2 in Hat1.
    destruct (at_pos_app _ _ _ _ Hat1) as [Hat3 _]. destruct (line_split r2) as (after & E4 & _). rewrite E4 in Hat3. apply at_pos_app in Hat3 as [_ H3].
    unfold leaf_laid, end_leaf. cbn [l_ranges]. eexists. eexists. exists [(R_multiline_field_operator, (i + spaces r, i + spaces r + length op)); (R_key, (i + spaces r + length op + spaces r1, i + spaces r + length op + spaces r1 + length key))].
    split; [reflexivity|]. split; [same_ranges|]. cbn [map snd]. apply (laid_gap inp _ _ _ _ G1).
    apply (laid_app inp _ [_] (i + spaces r + length op)); [apply (laid_one inp _ (_, _)); cbn [fst snd]; [reflexivity|lia]|]. apply (laid_gap inp _ _ _ _ G2).
    apply (laid_app inp _ [_] (i + spaces r + length op + spaces r1 + length key) []); [apply (laid_one inp _ (_, _)); cbn [fst snd]; [reflexivity|lia]|].
    apply laid_none. unfold eol. apply (gap_hspace inp _ _ (line_of r2)); [exact H3|lia|exact E3].
  Qed.

  Lemma ml_shape fuel : forall index line stop ls line3, ml_lines inp fuel index line stop = Some (ls, line3) ->
    Forall (fun l => exists b e, l_ranges l = [(R_line, (b, e)); (R_value, (b, e))]) ls.
  Proof.
    induction fuel as [|f IH]; intros index line stop ls line3; cbn [ml_lines]; [discriminate|]. destruct (find_nl_to inp index stop) as [e|].
    - destruct (ml_lines inp f (e + 1) (line + 1) stop) as [[ls' l']|] eqn:E; [|discriminate]. intros [= <- <-]. constructor; [exists index, e; reflexivity|]. exact (IH _ _ _ _ _ E).
    - intros [= <- <-]. constructor; [exists index, stop; reflexivity|constructor].
  Qed.
  Lemma value_line_laid l b e : l_ranges l = [(R_line, (b, e)); (R_value, (b, e))] -> nested inp (l_ranges l) -> leaf_laid l.
  Proof.
    intros E (b' & e' & H & Hbe & _). unfold leaf_laid. rewrite E in *. cbn in H. injection H as <- <-. lay [(R_value, (b, e))]. cbn [map snd].
    apply (laid_one inp b (b, e)); [reflexivity|assumption].
  Qed.

  Definition node_laid (n : node) : Prop := laid_out inp (n_ranges n) /\ Forall leaf_laid (hanging n).

  Lemma scanned_laid st t e : a_index st < length inp -> scan (a_index st) (skipn (a_index st) inp) = Some (t, e) -> laid inp (a_index st) (token_spans t) e.
  Proof. intro H. apply scan_laid. lia. Qed.
  Lemma cont_laid st t e lf : a_index st < length inp -> scan (a_index st) (skipn (a_index st) inp) = Some (t, e) -> is_cont inp st e t lf -> leaf_laid lf.
  Proof.
    intros Hlt Hsc Hic. pose proof (scanned_laid _ _ _ Hlt Hsc) as L. destruct Hic as [op v|op v]; unfold leaf_laid, cont_leaf; cbn [l_ranges token_spans] in *; apply single_laid; auto; discriminate.
  Qed.
  Theorem reach_comments_laid st : reach inp st -> Forall leaf_laid (olist (a_comments st)) /\ Forall leaf_laid (a_meta st).
  Proof.
    induction 1 as [|st st' Hr IH Hlt Hs]; [split; constructor|]. destruct (reach_inv _ _ Hr) as [HI _]. destruct IH as [I1 I2].
    destruct (step_change inp st st' HI ltac:(lia) Hs) as (t & e & Hsc & Hch).
    assert (Forall leaf_laid (flush (a_meta st) (a_comments st))) as Hf by (unfold flush; destruct (a_comments st); [apply Forall_app; auto|assumption]).
    destruct Hch as [n p g e' Hcr Hp Hg Hcore Hm Hc Hix Hee|c lf Hic Hlce Hh Hm Hc Hix Hli|op v -> Hh Hm Hc Hix Hli|q -> Hh Hm Hc Hix Hli]; rewrite Hm, Hc; cbn [olist]; (split; [|assumption]).
    - constructor.
    - constructor.
    - apply Forall_app. split; [assumption|]. constructor; [|constructor]. pose proof (scanned_laid _ _ _ Hlt Hsc) as L. unfold leaf_laid, comment_leaf. cbn [l_ranges token_spans] in *. apply single_laid; auto; discriminate.
    - constructor.
  Qed.
  Lemma created_laid st t e n p e' l' : reach inp st -> a_index st < length inp -> scan (a_index st) (skipn (a_index st) inp) = Some (t, e) -> created inp st e t n p e' l' ->
    line_end inp e -> node_laid n.
  Proof.
    intros Hr Hlt Hsc Hcr Hle. pose proof (scanned_laid _ _ _ Hlt Hsc) as L. destruct (reach_comments_laid st Hr) as [Hc _].
    assert (forall n, n_comments n = a_comments st -> n_conts n = None -> n_lines n = None -> n_end n = None -> Forall leaf_laid (hanging n)) as Hh.
    { intros x E1 E2 E3 E4. unfold hanging. rewrite E1, E2, E3, E4. cbn [olist app]. rewrite ?app_nil_r. exact Hc. }
    destruct Hcr as [k op v|op v l _ _|k op v l _ _|op k t p _|op k stop o2 k2 e2 lines line3 index3 H H0|k op t].
    - split; [now apply field_laid|now apply Hh].
    - split; [|now apply Hh]. cbn. apply single_laid; auto; discriminate.
    - split; [now apply entry_laid|now apply Hh].
    - split; [now apply section_laid|now apply Hh].
    - split.
      + cbn [ended multiline_node]. unfold ended. cbn. apply (single_laid (a_index st) e R_multiline_field_operator op R_key (Some k)); auto; discriminate.
      + pose proof Hle as Hle'. apply line_end_ends in Hle' as [Hlen Hen].
        destruct (closing_bounds _ _ _ _ _ _ _ _ Hlen H) as (B1 & B2 & B3 & B4 & B5).
        destruct (ml_part_spec _ _ _ _ _ _ _ H0 B1 B4 B5 Hle) as (-> & M2 & _).
        unfold hanging, ended. cbn. rewrite !Forall_app. split; [exact Hc|]. split.
        * unfold ml_part in H0. destruct (Nat.eqb stop e); [injection H0 as <- _; constructor|]. destruct (ml_lines _ _ _ _ _) as [[ls l3]|] eqn:E; [|discriminate]. injection H0 as <- _.
          apply ml_shape in E. cbn [olist] in *. rewrite Forall_forall in *. intros lf Hl. destruct (E lf Hl) as (b' & e'' & Er). apply (value_line_laid _ _ _ Er). apply (M2 lf Hl).
        * constructor; [|constructor]. apply (find_closing_ok inp) in H; [|split; [reflexivity|assumption]]. destruct H as (_ & _ & H).
          apply closing_laid with (line := line3) in H; [exact H|]. split; [reflexivity|lia].
    - split; [now apply copy_laid|now apply Hh].
  Qed.
  Theorem reach_laid st : reach inp st -> Forall node_laid (tl (a_heap st)).
  Proof.
    revert st. apply reach_forall_cont.
    - intros x y Hc. unfold core, dyn in Hc. assert (stat x = stat y) as Hs by congruence. unfold node_laid. rewrite (stat_ranges _ _ Hs). unfold hanging.
      replace (n_conts y) with (n_conts x) by congruence. replace (n_lines y) with (n_lines x) by congruence. replace (n_end y) with (n_end x) by congruence. now rewrite (stat_comments _ _ Hs).
    - intros g x Hg. destruct (Hg x) as (G1 & G2 & G3 & G4 & _). unfold node_laid, hanging. rewrite G2, G3, G4, (stat_ranges _ _ G1), (stat_comments _ _ G1). auto.
    - intros st t e lf x Hlt Hsc Hic [H1 H2]. pose proof (cont_laid st t e lf Hlt Hsc Hic) as Hl. destruct (cont_upd_eq lf x) as (C1 & C2 & C3 & C4 & _).
      unfold node_laid. rewrite C1. split; [assumption|]. unfold hanging in *. rewrite C2, C3, C4. rewrite !Forall_app in *. destruct H2 as (X1 & X2 & X3 & X4).
      split; [assumption|]. split; [|now split]. unfold cont_upd. destruct (n_conts x) as [cs|] eqn:E; [|destruct (itype_eqb (n_type x) EMPTY_ELEMENT)]; cbn; rewrite ?E, ?Forall_app; auto.
    - intros st t e n p e' l' Hr Hsc Hcr Hle _. destruct (Nat.lt_ge_cases (a_index st) (length inp)) as [Hlt|Hge]; [exact (created_laid st t e n p e' l' Hr Hlt Hsc Hcr Hle)|].
      rewrite skipn_all2 in Hsc by assumption. injection Hsc as <- <-. inversion Hcr.
  Qed.
  Theorem lines_laid st lc : analyze inp = AOk st lc ->
    (forall n, In n (tl (a_heap st)) -> laid_out inp (n_ranges n)) /\ (forall l, In l (flat_map hanging (tl (a_heap st)) ++ a_meta st) -> laid_out inp (l_ranges l)).
  Proof.
    intro Ha. pose proof (analyze_reach inp) as G. rewrite Ha in G. destruct G as (st0 & Hr & _ & -> & _). cbn [a_heap a_meta].
    pose proof (reach_laid st0 Hr) as H1. destruct (reach_comments_laid st0 Hr) as [H2 H3]. rewrite Forall_forall in *. split.
    - intros n Hn. exact (proj1 (H1 n Hn)).
    - intros l Hl. apply in_app_or in Hl as [Hl|Hl].
      + apply in_flat_map in Hl as (n & Hn & Hl). destruct (H1 n Hn) as [_ H]. rewrite Forall_forall in H. exact (H l Hl).
      + unfold flush in Hl. destruct (a_comments st0) as [cs|] eqn:E; [apply in_app_or in Hl as [Hl|Hl]|]; [exact (H3 l Hl)|exact (H2 l Hl)|exact (H3 l Hl)].
  Qed.
End Lines.

(** * Characters *)

Lemma laid_char inp i l e : laid inp i l e -> forall p c, i <= p -> p < e -> nth_error inp p = Some c -> is_space c = false -> exists s, In s l /\ fst s <= p < snd s.
Proof.
  assert (forall i j p c, i <= p -> p < j -> nth_error inp p = Some c -> is_space c = false -> ~ blank inp (i, j)) as K.
  { intros a b p c H1 H2 H3 H4 H. unfold blank, at_range, slice in H. cbn [fst snd] in H. rewrite forallb_forall in H. specialize (H c). rewrite H in H4; [discriminate|].
    apply (nth_error_In _ (p - a)). rewrite nth_error_firstn' by lia. rewrite nth_error_skipn'. now replace (a + (p - a)) with p by lia. }
  induction 1 as [i e H1 H2|i s l e H1 H2 H3 H4 IH]; intros p c P1 P2 P3 P4.
  - elim (K i e p c P1 P2 P3 P4 H2).
  - destruct (Nat.lt_ge_cases p (fst s)) as [Hl|Hl]; [elim (K i (fst s) p c P1 Hl P3 P4 H2)|]. destruct (Nat.lt_ge_cases p (snd s)) as [Hu|Hu]; [exists s; cbn; auto|].
    destruct (IH p c Hu P2 P3 P4) as (s' & Hs & Hp). exists s'. cbn. auto.
Qed.
Lemma character_placed inp rs p c : nested inp rs -> laid_out inp rs -> fst (line_range rs) <= p -> p < snd (line_range rs) -> nth_error inp p = Some c -> is_space c = false ->
  exists nm s, (In (nm, s) rs /\ nm <> R_line /\ fst s <= p < snd s) /\
    forall nm' s', In (nm', s') rs -> nm' <> R_line -> fst s' <= p < snd s' -> nm' = nm /\ s' = s.
Proof.
  intros (_ & _ & _ & _ & _ & _ & _ & _ & [A1 A2]) (b & e & l & E & Hl & L). unfold line_range. rewrite E. cbn [fst snd]. intros H1 H2 H3 H4.
  destruct (laid_char _ _ _ _ L p c H1 H2 H3 H4) as (s & Hs & Hp). apply in_map_iff in Hs as ([nm s0] & E0 & Hs). cbn in E0. subst s0. apply Hl in Hs as [Hs Hn]. cbn [fst] in Hn.
  exists nm, s. split; [auto|]. intros nm' s' K1 K2 K3.
  assert ({nm' = nm} + {nm' <> nm}) as [->|Hne] by (destruct (rname_eqb nm' nm) eqn:Er; [left; now apply rname_eqb_eq|right; intro Eq; apply rname_eqb_eq in Eq; congruence]).
  - split; [reflexivity|]. revert A1 K1 Hs. clear. induction rs as [|[n0 s0] rs IH]; cbn; [intros _ []|]. intro H. inversion_clear H as [|? ? N1 N2].
    intros [[= -> ->]|K1] [Hs|Hs].
    + now injection Hs as ->.
    + elim N1. apply in_map_iff. exists (nm, s). auto.
    + injection Hs as -> ->. elim N1. apply in_map_iff. exists (nm, s'). auto.
    + now apply IH.
  - destruct (A2 nm' s' nm s K1 Hs K2 Hn Hne) as [[B1 B2]|[B1 B2]]; lia.
Qed.
Theorem characters_placed inp st lc : analyze inp = AOk st lc -> forall rs, (exists n, In n (tl (a_heap st)) /\ rs = n_ranges n) \/ (exists l, In l (flat_map hanging (tl (a_heap st)) ++ a_meta st) /\ rs = l_ranges l) ->
  forall p c, fst (line_range rs) <= p -> p < snd (line_range rs) -> nth_error inp p = Some c -> is_space c = false ->
  exists nm s, (In (nm, s) rs /\ nm <> R_line /\ fst s <= p < snd s) /\
    forall nm' s', In (nm', s') rs -> nm' <> R_line -> fst s' <= p < snd s' -> nm' = nm /\ s' = s.
Proof.
  intros Ha rs Hrs p c. destruct (ranges_nested _ _ _ Ha) as [N1 N2]. destruct (lines_laid _ _ _ Ha) as [L1 L2].
  destruct Hrs as [(n & Hn & ->)|(l & Hl & ->)]; apply character_placed; auto.
Qed.
