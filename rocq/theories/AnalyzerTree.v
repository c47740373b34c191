(** AnalyzerTree: structure of analysed documents, acceptance of items, entries, continuations
    and sections, multiline fields and comments. *)
From Verif Require Import Base Types Scan Analyzer TokenStep ScanProofs ScanFacts StepProofs HeapFacts AnalyzerInv
  AnalyzerLoop StepChange SpecText AnalyzerText AnalyzerTiles SpecTree.

Lemma ncls_sec n : ncls n = CSec <-> is_section n.
Proof. unfold ncls, is_section. destruct (n_type n); cbn; split; congruence. Qed.
Lemma ncls_elem n : ncls n = CElem <-> is_element n.
Proof. unfold ncls, is_element. destruct (n_type n); cbn; split; intros; try discriminate; try contradiction; auto. Qed.
Lemma ncls_item n : ncls n = CItem <-> n_type n = LIST_ITEM.
Proof. unfold ncls. destruct (n_type n); cbn; split; congruence. Qed.
Lemma ncls_entry n : ncls n = CEntry <-> n_type n = FIELDSET_ENTRY.
Proof. unfold ncls. destruct (n_type n); cbn; split; congruence. Qed.
Lemma sec_like_container n : sec_like n <-> is_container n.
Proof. unfold sec_like, ncls, is_container. destruct (n_type n); cbn; split; intros [H|H]; try discriminate; auto. Qed.
Lemma odepth_depth n : odepth n = depth n.
Proof. unfold odepth, depth, ncls, width. destruct (n_type n); reflexivity. Qed.

Lemma children_elem h p : children t_elem h p = ids (elem_of p) h.
Proof.
  unfold children, ids. apply filter_ext_in'. intros j _. unfold elem_of, has_parent, is_cls, ncls.
  f_equal. destruct (n_type (hget h j)); reflexivity.
Qed.
Lemma children_item h p : children t_item h p = ids (item_of p) h.
Proof.
  unfold children, ids. apply filter_ext_in'. intros j _. unfold item_of, has_parent, is_cls, ncls.
  f_equal. destruct (n_type (hget h j)); reflexivity.
Qed.
Lemma children_entry h p : children t_entry h p = ids (entry_of p) h.
Proof.
  unfold children, ids. apply filter_ext_in'. intros j _. unfold entry_of, has_parent, is_cls, ncls.
  f_equal. destruct (n_type (hget h j)); reflexivity.
Qed.

Lemma with_items_list h p i : DInv h -> p < length h -> i < length h ->
  n_parent (hget h i) = Some p -> ncls (hget h i) = CItem -> n_type (hget h p) = LIST.
Proof.
  intros HD Hp Hi Hpar Hc. pose proof (d_items _ HD p Hp) as E. pose proof (d_type _ HD p Hp) as [_ Ht].
  assert (In i (ids (item_of p) h)) as Hin.
  { apply in_ids. split; [assumption|]. unfold item_of, is_cls. rewrite (has_parent_self _ _ Hpar), Hc. reflexivity. }
  rewrite <- E in Hin. destruct (n_items (hget h p)) as [l|] eqn:El; [|destruct Hin].
  unfold plain_node in Ht. destruct (n_type (hget h p)); try reflexivity; try contradiction; exfalso; intuition congruence.
Qed.
Lemma with_entries_fieldset h p i : DInv h -> p < length h -> i < length h ->
  n_parent (hget h i) = Some p -> ncls (hget h i) = CEntry -> n_type (hget h p) = FIELDSET.
Proof.
  intros HD Hp Hi Hpar Hc. pose proof (d_entries _ HD p Hp) as E. pose proof (d_type _ HD p Hp) as [_ Ht].
  assert (In i (ids (entry_of p) h)) as Hin.
  { apply in_ids. split; [assumption|]. unfold entry_of, is_cls. rewrite (has_parent_self _ _ Hpar), Hc. reflexivity. }
  rewrite <- E in Hin. destruct (n_entries (hget h p)) as [l|] eqn:El; [|destruct Hin].
  unfold plain_node in Ht. destruct (n_type (hget h p)); try reflexivity; try contradiction; exfalso; intuition congruence.
Qed.

Lemma tree_of h : SInv h -> DInv h -> tree h.
Proof.
  intros HS HD. unfold tree. split; [apply HS|]. split; [|split; [apply HS|split]].
  - pose proof (s_doc _ HS) as H. unfold ncls in H. destruct (n_type (hget h 0)); try discriminate. reflexivity.
  - intros i Hi. destruct (s_node _ HS i Hi) as (p & Hp & Hlt & Hpl). exists p. repeat split; auto.
    unfold placed, well_placed in *.
    destruct (ncls (hget h i)) eqn:Hc.
    + contradiction.
    + apply ncls_sec in Hc as Hc'. unfold is_section in Hc'. rewrite Hc'.
      destruct Hpl as (P1 & P2 & P3). split; [now apply sec_like_container|].
      rewrite <- !odepth_depth. split; [assumption|]. intros j Hj Hs. rewrite <- odepth_depth. apply P3; auto. now apply ncls_sec.
    + apply ncls_elem in Hc. unfold is_element in Hc.
      assert (is_container (hget h p) /\ (forall j, p < j < i -> ~ is_section (hget h j))) as G.
      { destruct Hpl as (P1 & P2). split; [now apply sec_like_container|]. intros j Hj Hs. apply (P2 j Hj). now apply ncls_sec. }
      destruct (n_type (hget h i)); try contradiction; exact G.
    + apply ncls_item in Hc as Hc'. rewrite Hc'. destruct Hpl as (P1 & P2). split.
      * apply with_items_list with i; auto; lia.
      * intros j Hj. destruct (P2 j Hj) as [P3 P4]. split; [now apply ncls_item|assumption].
    + apply ncls_entry in Hc as Hc'. rewrite Hc'. destruct Hpl as (P1 & P2). split.
      * apply with_entries_fieldset with i; auto; lia.
      * intros j Hj. destruct (P2 j Hj) as [P3 P4]. split; [now apply ncls_entry|assumption].
    + contradiction.
  - intros p Hp. rewrite children_elem, children_item, children_entry. repeat split; now apply HD.
Qed.

(** * Which attachment points there are *)

(** the latest element or section *)
Lemma latest_head st l : AInv st ->
  latest (fun n => is_element n \/ is_container n) (a_heap st) l ->
  match a_lnse st with
  | Some x => x = l
  | None => is_container (hget (a_heap st) l) \/ n_type (hget (a_heap st) l) = MULTILINE_FIELD_BEGIN
  end.
Proof.
  intros HI (L1 & L2 & L3). pose proof (i_lnse _ _ _ _ _ HI) as H. destruct (a_lnse st) as [x|].
  - destruct H as (J1 & J2 & J3 & J4 & J5). destruct (lt_eq_lt_dec x l) as [[Hlt|]|Hgt]; auto.
    + destruct (J5 l) as [[J|J] _]; [lia| |]; exfalso.
      * apply ncls_item in J. unfold is_element, is_container in L2. rewrite J in L2. intuition discriminate.
      * apply ncls_entry in J. unfold is_element, is_container in L2. rewrite J in L2. intuition discriminate.
    + exfalso. apply (L3 x); [lia|]. left. now apply ncls_elem.
  - destruct H as [H|[H1 H2]].
    + left. assert (l = a_lsec st) as ->.
      { destruct (lt_eq_lt_dec l (a_lsec st)) as [[Hlt|]|Hgt]; auto; [|lia]. exfalso. apply (L3 (a_lsec st)); [lia|].
        right. apply sec_like_container. apply HI. }
      apply sec_like_container. apply HI.
    + right. pose proof (i_sec _ _ _ _ _ HI) as Hs.
      assert (l = length (a_heap st) - 1) as ->; [|assumption].
      destruct (lt_eq_lt_dec l (length (a_heap st) - 1)) as [[Hlt|]|Hgt]; auto; [|lia]. exfalso.
      apply (L3 (length (a_heap st) - 1)); [lia|]. left. unfold is_element. now rewrite H1.
Qed.

Lemma accepts_cont_iff n : accepts_continuation n = true <-> continuable n.
Proof.
  unfold accepts_continuation, continuable. destruct (n_type n); try tauto; try (split; [discriminate|contradiction]).
  all: destruct (n_template n); split; congruence.
Qed.

Lemma lce_last st : AInv st ->
  a_lce st = if accepts_continuation (hget (a_heap st) (length (a_heap st) - 1))
             then Some (length (a_heap st) - 1) else None.
Proof.
  intro HI. pose proof (i_lce _ _ _ _ _ HI) as H. destruct (a_lce st) as [c|].
  - destruct H as [H1 H2]. assert (c = length (a_heap st) - 1) as -> by lia.
    apply accepts_cont_iff in H2. now rewrite H2.
  - destruct (accepts_continuation _) eqn:E; [|reflexivity]. apply accepts_cont_iff in E. contradiction.
Qed.

Lemma latest_section st s : AInv st -> latest is_container (a_heap st) s -> s = a_lsec st.
Proof.
  intros HI (L1 & L2 & L3). destruct (lt_eq_lt_dec s (a_lsec st)) as [[Hlt|]|Hgt]; auto; exfalso.
  - apply (L3 (a_lsec st)); [split; [assumption|apply HI]|]. apply sec_like_container. apply HI.
  - apply sec_like_container in L2 as [L2|L2].
    + pose proof (i_s _ _ _ _ _ HI) as HS. destruct (s_node _ HS s) as (p & _ & _ & Hpl); [lia|].
      unfold placed in Hpl. rewrite L2 in Hpl. exact Hpl.
    + apply (i_seclast _ _ _ _ _ HI s); auto.
Qed.

Lemma fail_at_first inp st mk index line :
  exists i st' lc, fail_at inp st index line mk = SErr (mk i) st' lc /\ l_line i = line /\ fst (leaf_line i) = index.
Proof.
  destruct (fail_at_err inp st index line mk) as (i0 & ls & lc & _ & E). unfold fail_at in E |- *.
  destruct (tokenize_error _ _ _ _) as [[l0 lc']|] eqn:E'; [|discriminate].
  destruct l0 as [|i l0]; [discriminate|]. exists i. do 2 eexists. split; [reflexivity|]. clear E.
  cbn [tokenize_error] in E'. destruct (find_nl inp index).
  - destruct (tokenize_error inp (length inp) _ _) as [[? ?]|]; [|discriminate]. injection E' as <- _ _. auto.
  - injection E' as <- _ _. auto.
Qed.

(** * Acceptance *)

Theorem item_step inp st l op v e : reach inp st -> a_index st < length inp ->
  scan (a_index st) (skipn (a_index st) inp) = Some (TItem op v, e) ->
  latest (fun n => is_element n \/ is_container n) (a_heap st) l ->
  if accepts_items (hget (a_heap st) l)
  then exists st', step inp st = SOk st' /\ length (a_heap st') = S (length (a_heap st)) /\
         n_type (hget (a_heap st') (length (a_heap st))) = LIST_ITEM /\
         n_parent (hget (a_heap st') (length (a_heap st))) = Some l /\
         n_value (hget (a_heap st') (length (a_heap st))) = option_map (at_range inp) v /\
         n_type (hget (a_heap st') l) = LIST /\
         opt_list (n_items (hget (a_heap st') l)) = opt_list (n_items (hget (a_heap st) l)) ++ [length (a_heap st)] /\
         (forall j, j < length (a_heap st) -> j <> l -> hget (a_heap st') j = hget (a_heap st) j)
  else exists i st' lc, step inp st = SErr (PMissingListForItem i) st' lc /\
         l_line i = a_line st /\ fst (leaf_line i) = a_index st.
Proof.
  intros Hr Hlt Hsc Hl. destruct (reach_inv _ _ Hr) as [HI _].
  rewrite step_tstep by lia. unfold tstep. rewrite Hsc. cbn [tstep_tok].
  pose proof (latest_head st l HI Hl) as Hx. destruct (a_lnse st) as [x|].
  - subst x. change (takes_items (n_type (hget (a_heap st) l))) with (accepts_items (hget (a_heap st) l)).
    destruct (accepts_items (hget (a_heap st) l)) eqn:Ha; [|apply fail_at_first].
    eexists. split; [reflexivity|]. destruct Hl as (L1 & _). cbn [a_heap].
    change (hupd (a_heap st ++ [item_node inp st e op v l]) l (add_item (length (a_heap st))))
      with (app_upd (a_heap st) (item_node inp st e op v l) l (add_item (length (a_heap st)))).
    rewrite app_upd_length, app_upd_new, app_upd_at by auto using benign_add_item.
    pose proof (d_type _ (i_d _ _ _ _ _ HI) l L1) as [_ Ht].
    unfold accepts_items in Ha. unfold add_item, plain_node in *.
    conjs; try (destruct (n_type (hget (a_heap st) l)) eqn:Et; try discriminate; cbn; rewrite ?Et; try reflexivity).
    + destruct Ht as ((-> & _) & _). reflexivity.
    + destruct (n_items (hget (a_heap st) l)); reflexivity.
    + intros j Hj Hne. apply app_upd_old; auto.
    + intros j Hj Hne. apply app_upd_old; auto.
  - assert (accepts_items (hget (a_heap st) l) = false) as ->; [|apply fail_at_first].
    unfold accepts_items. destruct Hx as [[Hx|Hx]|Hx]; rewrite Hx; reflexivity.
Qed.

Theorem entry_step inp st l k op v e : reach inp st -> a_index st < length inp ->
  scan (a_index st) (skipn (a_index st) inp) = Some (TEntry k op v, e) ->
  latest (fun n => is_element n \/ is_container n) (a_heap st) l ->
  if accepts_entries (hget (a_heap st) l)
  then exists st', step inp st = SOk st' /\ length (a_heap st') = S (length (a_heap st)) /\
         n_type (hget (a_heap st') (length (a_heap st))) = FIELDSET_ENTRY /\
         n_parent (hget (a_heap st') (length (a_heap st))) = Some l /\
         n_value (hget (a_heap st') (length (a_heap st))) = option_map (at_range inp) v /\
         n_type (hget (a_heap st') l) = FIELDSET /\
         opt_list (n_entries (hget (a_heap st') l)) = opt_list (n_entries (hget (a_heap st) l)) ++ [length (a_heap st)] /\
         (forall j, j < length (a_heap st) -> j <> l -> hget (a_heap st') j = hget (a_heap st) j)
  else exists i st' lc, step inp st = SErr (PMissingFieldsetForEntry i) st' lc /\
         l_line i = a_line st /\ fst (leaf_line i) = a_index st.
Proof.
  intros Hr Hlt Hsc Hl. destruct (reach_inv _ _ Hr) as [HI _].
  rewrite step_tstep by lia. unfold tstep. rewrite Hsc. cbn [tstep_tok].
  pose proof (latest_head st l HI Hl) as Hx. destruct (a_lnse st) as [x|].
  - subst x. change (takes_entries (n_type (hget (a_heap st) l))) with (accepts_entries (hget (a_heap st) l)).
    destruct (accepts_entries (hget (a_heap st) l)) eqn:Ha; [|apply fail_at_first].
    eexists. split; [reflexivity|]. destruct Hl as (L1 & _). cbn [a_heap].
    change (hupd (a_heap st ++ [entry_node inp st e k op v l]) l (add_entry (length (a_heap st))))
      with (app_upd (a_heap st) (entry_node inp st e k op v l) l (add_entry (length (a_heap st)))).
    rewrite app_upd_length, app_upd_new, app_upd_at by auto using benign_add_entry.
    pose proof (d_type _ (i_d _ _ _ _ _ HI) l L1) as [_ Ht].
    unfold accepts_entries in Ha. unfold add_entry, plain_node in *.
    conjs; try (destruct (n_type (hget (a_heap st) l)) eqn:Et; try discriminate; cbn; rewrite ?Et; try reflexivity).
    + destruct Ht as ((_ & -> & _) & _). reflexivity.
    + destruct (n_entries (hget (a_heap st) l)); reflexivity.
    + intros j Hj Hne. apply app_upd_old; auto.
    + intros j Hj Hne. apply app_upd_old; auto.
  - assert (accepts_entries (hget (a_heap st) l) = false) as ->; [|apply fail_at_first].
    unfold accepts_entries. destruct Hx as [[Hx|Hx]|Hx]; rewrite Hx; reflexivity.
Qed.

Theorem continuation_step inp st (sp : bool) op v e t : reach inp st -> a_index st < length inp ->
  scan (a_index st) (skipn (a_index st) inp) = Some (t, e) ->
  t = (if sp then TSpaced op v else TDirect op v) ->
  let c := length (a_heap st) - 1 in
  if accepts_continuation (hget (a_heap st) c)
  then exists st' lf, step inp st = SOk st' /\ length (a_heap st') = length (a_heap st) /\
         l_type lf = Some CONTINUATION /\ l_spaced lf = sp /\ l_text lf = option_map (at_range inp) v /\
         n_conts (hget (a_heap st') c) =
           Some (match n_conts (hget (a_heap st) c) with Some l => l | None => [] end ++ [lf]) /\
         n_key (hget (a_heap st') c) = n_key (hget (a_heap st) c) /\
         n_value (hget (a_heap st') c) = n_value (hget (a_heap st) c) /\
         (forall j, j <> c -> hget (a_heap st') j = hget (a_heap st) j)
  else exists i st' lc, step inp st = SErr (PMissingElementForContinuation i) st' lc /\
         l_line i = a_line st /\ fst (leaf_line i) = a_index st.
Proof.
  intros Hr Hlt Hsc -> c. destruct (reach_inv _ _ Hr) as [HI _].
  rewrite step_tstep by lia. unfold tstep. rewrite Hsc.
  pose proof (lce_last st HI) as Hx. fold c in Hx.
  assert (c < length (a_heap st)) as Hc.
  { pose proof (s_len _ (i_s _ _ _ _ _ HI)). subst c. lia. }
  destruct (accepts_continuation (hget (a_heap st) c)) eqn:Ha.
  - destruct sp; cbn [tstep_tok]; rewrite Hx; do 2 eexists; (split; [reflexivity|]); cbn [a_heap];
    match goal with |- context [add_continuation ?h ?c ?lf] => change (add_continuation h c lf) with (upd h c (cont_upd lf)) end;
    rewrite upd_length, hget_upd_eq by assumption.
    + split; [reflexivity|]. split; [|split; [|split; [|split; [|split; [|split]]]]].
      5:{ apply (stat_key _ _ (benign_cont _ _)). }
      5:{ apply (stat_value _ _ (benign_cont _ _)). }
      4:{ unfold cont_upd. destruct (n_conts (hget (a_heap st) c)); [reflexivity|].
          destruct (itype_eqb _ _); reflexivity. }
      1-3: reflexivity. intros j Hj. apply hget_upd_neq. congruence.
    + split; [reflexivity|]. split; [|split; [|split; [|split; [|split; [|split]]]]].
      5:{ apply (stat_key _ _ (benign_cont _ _)). }
      5:{ apply (stat_value _ _ (benign_cont _ _)). }
      4:{ unfold cont_upd. destruct (n_conts (hget (a_heap st) c)); [reflexivity|].
          destruct (itype_eqb _ _); reflexivity. }
      1-3: reflexivity. intros j Hj. apply hget_upd_neq. congruence.
  - destruct sp; cbn [tstep_tok]; rewrite Hx; apply fail_at_first.
Qed.

Theorem section_step inp st s op k t e : reach inp st -> a_index st < length inp ->
  scan (a_index st) (skipn (a_index st) inp) = Some (TSection op k t, e) ->
  latest is_container (a_heap st) s ->
  let n := snd op - fst op in
  if Nat.leb n (depth (hget (a_heap st) s) + 1)
  then exists st' p, step inp st = SOk st' /\
         length (a_heap st') = S (length (a_heap st)) /\
         latest (fun x => is_container x /\ depth x = n - 1) (a_heap st) p /\
         let x := hget (a_heap st') (length (a_heap st)) in
         n_type x = SECTION /\ depth x = n /\ n_parent x = Some p /\
         n_key x = Some (at_range inp (match k with Plain a => a | Escaped _ a _ => a end)) /\
         n_elements (hget (a_heap st') p) = n_elements (hget (a_heap st) p) ++ [length (a_heap st)]
  else exists i st' lc, step inp st = SErr (PLayerSkip i s) st' lc /\
         l_line i = a_line st /\ fst (leaf_line i) = a_index st.
Proof.
  intros Hr Hlt Hsc Hs n. destruct (reach_inv _ _ Hr) as [HI _].
  pose proof (latest_section st s HI Hs) as ->.
  assert (depth (hget (a_heap st) (a_lsec st)) = a_depth st) as Hd.
  { rewrite <- odepth_depth. apply HI. }
  rewrite Hd. destruct (scan_ok inp (a_index st) _ _ ltac:(lia) Hsc) as (Hie & Hle & Htok).
  destruct Htok as ([Hop _] & _). unfold span_in in Hop.
  destruct (Nat.leb_spec n (a_depth st + 1)) as [Hn|Hn].
  - destruct (section_parent_spec st n HI) as (p & Hp & Hcl & Hod & Hsl & Hlp); [unfold n; lia|assumption|].
    pose proof (step_inv inp st HI ltac:(lia)) as Hok.
    rewrite step_tstep in * by lia. unfold tstep in *. rewrite Hsc in *. cbn [tstep_tok] in *.
    fold n in Hok |- *. rewrite Hp in Hok |- *.
    set (nd := section_node inp st e op k t p) in *.
    set (g := fun n0 => set_elements (n_elements n0 ++ [length (a_heap st)]) n0).
    change (add_element (a_heap st ++ [nd]) p (length (a_heap st))) with (app_upd (a_heap st) nd p g) in *.
    assert (latest (fun x => is_container x /\ depth x = n - 1) (a_heap st) p) as Hlat.
    { split; [assumption|]. split.
      - split; [now apply sec_like_container|]. rewrite <- odepth_depth. lia.
      - intros j Hj [Hc Hdj]. rewrite <- odepth_depth in Hdj.
        apply sec_like_container in Hc as [Hc|Hc].
        + pose proof (i_s _ _ _ _ _ HI) as HS. destruct (s_node _ HS j) as (q & _ & _ & Hpl); [lia|].
          unfold placed in Hpl. now rewrite Hc in Hpl.
        + pose proof (i_open _ _ _ _ _ HI _ _ Hcl j Hj Hc). lia. }
    assert (forall h', map core h' = map core (app_upd (a_heap st) nd p g) ->
       length h' = S (length (a_heap st)) /\
       let x := hget h' (length (a_heap st)) in
       n_type x = SECTION /\ depth x = n /\ n_parent x = Some p /\
         n_key x = Some (at_range inp (match k with Plain a => a | Escaped _ a _ => a end)) /\
         n_elements (hget h' p) = n_elements (hget (a_heap st) p) ++ [length (a_heap st)]) as Hgen.
    { intros h' Hc. pose proof (map_core_get _ _ (length (a_heap st)) Hc) as G1.
      pose proof (map_core_get _ _ p Hc) as G2.
      rewrite app_upd_new in G1 by assumption. rewrite app_upd_at in G2 by (assumption || now intro).
      split; [apply map_core_stat, map_stat_length in Hc; rewrite Hc; apply app_upd_length|].
      assert (n_type (hget h' (length (a_heap st))) = SECTION) as Et.
      { unfold core, dyn in G1. assert (n_type (hget h' (length (a_heap st))) = n_type nd) as -> by congruence. reflexivity. }
      assert (stat (hget h' (length (a_heap st))) = stat nd) as G1' by (unfold core in G1; congruence).
      cbv zeta. split; [assumption|]. split; [|split; [|split]].
      - unfold depth. rewrite Et, (stat_ranges _ _ G1'). reflexivity.
      - rewrite (stat_parent _ _ G1'). reflexivity.
      - rewrite (stat_key _ _ G1'). destruct k; reflexivity.
      - unfold core, dyn in G2. assert (n_elements (hget h' p) = n_elements (g (hget (a_heap st) p))) as -> by congruence.
        reflexivity. }
    destruct t as [[o ts]|].
    + destruct (mark_deep _ _ _) as [h2|] eqn:Em; [|contradiction].
      do 2 eexists. split; [reflexivity|]. cbn [a_heap]. apply mark_deep_core in Em.
      destruct (Hgen h2 Em) as [G1 G2]. split; [assumption|]. split; [exact Hlat|exact G2].
    + do 2 eexists. split; [reflexivity|]. cbn [a_heap].
      destruct (Hgen _ eq_refl) as [G1 G2]. split; [assumption|]. split; [exact Hlat|exact G2].
  - rewrite step_tstep by lia. unfold tstep. rewrite Hsc. cbn [tstep_tok]. fold n.
    assert (section_parent st n = None) as -> by (apply section_parent_skip; lia).
    apply (fail_at_first inp st (fun i => PLayerSkip i (a_lsec st))).
Qed.
