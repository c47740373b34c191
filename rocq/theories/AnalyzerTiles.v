(** AnalyzerTiles: order and tiling of the recorded lines, line numbers. *)
From Coq Require Import Permutation.
From Verif Require Import Base Types Scan Analyzer TokenStep ScanProofs ScanFacts StepProofs HeapFacts AnalyzerInv
  AnalyzerLoop StepChange SpecText AnalyzerText.

(** * Ascending sequences and tilings *)

Lemma ascending_le lo l hi : ascending lo l hi -> lo <= hi.
Proof.
  revert lo. induction l as [|[b e] l IH]; intros lo; cbn; [auto|]. intros (H1 & H2 & H3). apply IH in H3. lia.
Qed.
Lemma ascending_app lo l1 l2 hi : ascending lo (l1 ++ l2) hi <-> exists mid, ascending lo l1 mid /\ ascending mid l2 hi.
Proof.
  revert lo. induction l1 as [|[b e] l1 IH]; intros lo; cbn [app ascending].
  - split; [intro H; exists lo; split; [lia|assumption]|].
    intros (mid & H1 & H2). destruct l2 as [|[b e] l2]; cbn in *; [lia|intuition lia].
  - rewrite IH. split.
    + intros (H1 & H2 & mid & H3 & H4). eauto.
    + intros (mid & (H1 & H2 & H3) & H4). eauto.
Qed.
Lemma ascending_weaken lo lo' l hi hi' : lo' <= lo -> hi <= hi' -> ascending lo l hi -> ascending lo' l hi'.
Proof.
  revert lo lo'. induction l as [|[b e] l IH]; intros lo lo' H1 H2; cbn; [lia|].
  intros (H3 & H4 & H5). repeat split; try lia. eapply IH; eauto.
Qed.
Lemma tiles_app inp i l1 j l2 k : tiles inp i l1 j -> tiles inp j l2 k -> tiles inp i (l1 ++ l2) k.
Proof. induction 1; cbn; [auto|]. intro. constructor; auto. Qed.
Lemma tiles_ascending inp i l j : tiles inp i l j -> ascending i l j.
Proof. induction 1; cbn; [lia|]. repeat split; auto. Qed.

(** * The lists over a changed heap *)

Section Lists.
  Context {B : Type} (f : node -> list B)
    (Hf : forall x y, stat x = stat y -> n_conts x = n_conts y -> n_lines x = n_lines y -> n_end x = n_end y -> f x = f y).
  Definition over (h : heap) := flat_map f (tl h).
  Lemma over_core h h' : map core h = map core h' -> over h = over h'.
  Proof.
    intro H. unfold over. apply map_core_tl in H. revert H. generalize (tl h), (tl h'). clear h h'.
    induction l as [|x l IH]; intros [|y l'] H; cbn [map flat_map] in *; try discriminate; [reflexivity|].
    rewrite (IH l') by congruence. f_equal. assert (core x = core y) as Hc by congruence. unfold core, dyn in Hc. apply Hf; congruence.
  Qed.
  Lemma flat_map_upd_same (g : node -> node) l i : (forall x, f (g x) = f x) -> flat_map f (upd l i g) = flat_map f l.
  Proof.
    intro Hg. revert i. induction l as [|x l IH]; intros [|i]; cbn; try reflexivity.
    - now rewrite Hg.
    - now rewrite IH.
  Qed.
  Lemma over_app_upd h n p g : h <> [] -> registering g -> over (app_upd h n p g) = over h ++ f n.
  Proof.
    intros Hh Hg. unfold over, app_upd.
    assert (flat_map f (tl (h ++ [n])) = flat_map f (tl h) ++ f n) as E.
    { rewrite tl_app by assumption. rewrite flat_map_app. cbn. now rewrite app_nil_r. }
    rewrite <- E. destruct p as [|p]; [now rewrite tl_upd0|]. rewrite tl_upd. apply flat_map_upd_same.
    intro x. destruct (Hg x) as (G1 & G2 & G3 & G4 & _). apply Hf; congruence.
  Qed.
  Lemma flat_map_upd_last (g : node -> node) l x b : f (g x) = f x ++ [b] ->
    flat_map f (upd (l ++ [x]) (length l) g) = flat_map f (l ++ [x]) ++ [b].
  Proof.
    intro Hg. rewrite upd_last, !flat_map_app. cbn. rewrite !app_nil_r, Hg. now rewrite app_assoc.
  Qed.
  Lemma over_last h c g b : S c = length h -> 0 < c -> f (g (hget h c)) = f (hget h c) ++ [b] ->
    over (hupd h c g) = over h ++ [b].
  Proof.
    intros Hc H0 Hg. unfold over, hupd.
    assert (h <> []) as Hne by (intros ->; cbn in Hc; lia).
    pose proof (app_removelast_last document_node Hne) as E.
    set (h0 := removelast h) in *. set (x := last h document_node) in *.
    assert (length h0 = c) as Hl by (apply (f_equal (@length _)) in E; rewrite app_length in E; cbn in E; lia).
    assert (hget h c = x) as Hx by (unfold hget; rewrite E, app_nth2, Hl, Nat.sub_diag by lia; reflexivity).
    rewrite Hx in Hg. rewrite E. destruct c as [|c]; [lia|]. rewrite tl_upd.
    destruct h0 as [|y h0]; [discriminate|]. cbn [app tl]. injection Hl as <-.
    now apply flat_map_upd_last.
  Qed.
End Lists.

Lemma node_lines_ext x y : stat x = stat y -> n_conts x = n_conts y -> n_lines x = n_lines y -> n_end x = n_end y ->
  node_lines x = node_lines y.
Proof. intros H H1 H2 H3. unfold node_lines. now rewrite (stat_comments _ _ H), (stat_ranges _ _ H), H1, H2, H3. Qed.
Lemma node_nums_ext x y : stat x = stat y -> n_conts x = n_conts y -> n_lines x = n_lines y -> n_end x = n_end y ->
  node_nums x = node_nums y.
Proof. intros H H1 H2 H3. unfold node_nums. now rewrite (stat_comments _ _ H), (stat_ranges _ _ H), (stat_line _ _ H), H1, H2, H3. Qed.

Lemma continuable_no_lines n : type_ok n -> continuable n -> n_lines n = None /\ n_end n = None.
Proof.
  unfold type_ok, continuable, plain_node. intros [_ H]. destruct (n_type n); tauto.
Qed.
Lemma cont_lines lf n : n_lines n = None -> n_end n = None ->
  node_lines (cont_upd lf n) = node_lines n ++ [leaf_line lf].
Proof.
  intros H1 H2. unfold node_lines, cont_upd. destruct (n_conts n) as [cs|] eqn:E.
  - cbn. rewrite ?E, H1, H2. cbn. rewrite !app_nil_r, map_app, <- app_assoc. reflexivity.
  - destruct (itype_eqb (n_type n) EMPTY_ELEMENT); cbn; rewrite ?E, H1, H2; cbn; rewrite <- app_assoc; reflexivity.
Qed.
Lemma cont_nums lf n : n_lines n = None -> n_end n = None ->
  node_nums (cont_upd lf n) = node_nums n ++ [leaf_num lf].
Proof.
  intros H1 H2. unfold node_nums, cont_upd. destruct (n_conts n) as [cs|] eqn:E.
  - cbn. rewrite ?E, H1, H2. cbn. rewrite !app_nil_r, map_app, <- app_assoc. reflexivity.
  - destruct (itype_eqb (n_type n) EMPTY_ELEMENT); cbn; rewrite ?E, H1, H2; cbn; rewrite <- app_assoc; reflexivity.
Qed.

(** * What the new node adds *)

Definition tail_leaves (n : node) : list leaf :=
  olist (n_conts n) ++ olist (n_lines n) ++ match n_end n with Some l => [l] | None => [] end.

Lemma node_lines_eq n : node_lines n = map leaf_line (olist (n_comments n)) ++ line_range (n_ranges n) :: map leaf_line (tail_leaves n).
Proof. reflexivity. Qed.
Lemma node_nums_eq n : node_nums n = map leaf_num (olist (n_comments n)) ++ (n_line n, line_range (n_ranges n)) :: map leaf_num (tail_leaves n).
Proof. reflexivity. Qed.

Lemma created_tail inp st e t n p e' l' : created inp st e t n p e' l' -> line_end inp e ->
  tok_ok inp (a_index st) e t ->
  tiles inp (S e) (map leaf_line (tail_leaves n)) (S e') /\
  (forall j lf, nth_error (tail_leaves n) j = Some lf -> l_line lf = S (a_line st) + j) /\
  l' = S (a_line st) + length (tail_leaves n) /\
  Forall (fun lf => single_line inp (leaf_line lf)) (tail_leaves n).
Proof.
  intros Hcr Hle Htok. destruct Hcr; cbn;
    try (repeat split; try constructor; try lia; intros [|j] lf; discriminate).
  pose proof Hle as Hle'. apply line_end_ends in Hle' as [Hlen Hen].
  destruct (closing_bounds _ _ _ _ _ _ _ _ Hlen H) as (B1 & B2 & B3 & B4 & B5).
  destruct (ml_part_spec _ _ _ _ _ _ _ H0 B1 B4 B5 Hle) as (-> & M2 & M3 & M4 & M5 & M6 & M7).
  unfold tail_leaves. cbn.
  apply line_end_ends in B3 as [B3 B3']. repeat split.
  - rewrite map_app. eapply tiles_app; [exact M4|]. cbn. unfold leaf_line, line_range. cbn.
    constructor; try lia; try assumption. constructor.
  - intros j lf Hj. destruct (lt_dec j (length (olist lines))) as [Hlt|Hge].
    + rewrite nth_error_app1 in Hj by assumption. apply M5 in Hj. lia.
    + rewrite nth_error_app2 in Hj by lia. destruct (j - length (olist lines)) as [|[|m]] eqn:Ej; cbn in Hj; try discriminate.
      injection Hj as <-. cbn. lia.
  - rewrite app_length. cbn. lia.
  - apply Forall_app. split.
    + clear - M2 H0 B1 B4 B5 Hle. unfold ml_part in H0.
      destruct (Nat.eqb_spec stop e); [injection H0 as <- <-; constructor|].
      destruct (ml_lines _ _ _ _ _) as [[ls l3]|] eqn:E; [|discriminate]. injection H0 as <- <-. cbn [olist] in *.
      apply ml_spec in E; try assumption; [|lia|apply begins_next; [assumption|lia]].
      destruct E as (_ & _ & _ & _ & E5 & _).
      rewrite Forall_forall in *. intros lf Hin. specialize (M2 lf Hin). specialize (E5 lf Hin).
      destruct M2 as [_ M2]. rewrite E5 in M2. apply M2.
    + constructor; [|constructor]. change (~ In nl (slice inp (S stop) e2)).
      apply (find_closing_ok inp) in H; [|split; [reflexivity|assumption]]. destruct H as (_ & _ & H).
      apply not_nl_in. revert H. unfold closing_line.
      remember (skipn (S stop) inp) as r eqn:Er.
      destruct (Regex.strip_prefix (sub inp op) (after_spaces r)) as [r1|] eqn:E1; [|discriminate].
      destruct (match r1 with c :: _ => _ | [] => _ end); [discriminate|].
      destruct (Regex.strip_prefix (sub inp k) (after_spaces r1)) as [r2|] eqn:E2; [|discriminate].
      destruct (forallb hspace (line_of r2)) eqn:E3; [|discriminate]. intros [= <- <- <-].
      apply strip_prefix_app in E1. apply strip_prefix_app in E2.
      assert (r = (takewhile hspace r ++ sub inp op ++ takewhile hspace r1 ++ sub inp k ++ line_of r2)
                    ++ dropwhile not_nl r2) as Hr.
      { rewrite <- (take_drop_while hspace r) at 1. unfold after_spaces in *. rewrite E1.
        rewrite <- (take_drop_while hspace r1) at 1. rewrite E2.
        rewrite <- (take_drop_while not_nl r2) at 1. unfold line_of. now rewrite <- !app_assoc. }
      set (a := takewhile hspace r ++ sub inp op ++ takewhile hspace r1 ++ sub inp k ++ line_of r2) in *.
      unfold slice. match goal with |- context [firstn (?x - S stop)] => assert (x = S stop + length a) as -> end.
      { unfold a, eol, spaces. rewrite !app_length. lia. }
      replace (S stop + length a - S stop) with (length a) by lia. rewrite <- Er, Hr, firstn_app, Nat.sub_diag, firstn_all, firstn_O, app_nil_r.
      unfold a. rewrite !forallb_app. unfold tok_ok in Htok. destruct Htok as ([_ Hop] & _ & [_ (_ & _ & _ & Hk)]).
      assert (forall l, forallb hspace l = true -> forallb not_nl l = true) as Hs.
      { intros l. apply forallb_impl. intros c Hc. unfold hspace in Hc. apply andb_true_iff in Hc. apply Hc. }
      rewrite !(Hs _ (takewhile_all _ _)). cbn.
      apply not_nl_in in Hk. rewrite Hk, (Hs _ E3). rewrite !andb_true_r. rewrite Hop.
      clear. induction (snd op - fst op); [reflexivity|]. cbn. assumption.
Qed.

(** * The order and tiling invariant *)

Record OInv (inp : text) (st : ast) : Prop := {
  o_heap : exists mid, ascending 0 (heap_lines (a_heap st)) mid /\
                       ascending mid (map leaf_line (olist (a_comments st))) (a_index st);
  o_meta : ascending 0 (map leaf_line (a_meta st ++ olist (a_comments st))) (a_index st);
  o_tiles : exists l blanks, tiles inp 0 l (a_index st) /\ Forall (blank inp) blanks /\
     Permutation l (heap_lines (a_heap st) ++ map leaf_line (a_meta st) ++
                    map leaf_line (olist (a_comments st)) ++ blanks)
}.

Lemma flush_eq meta c : flush meta c = meta ++ olist c.
Proof. destruct c; cbn; [reflexivity|now rewrite app_nil_r]. Qed.

Lemma blank_line inp i e : forallb hspace (slice inp i e) = true -> blank inp (i, e).
Proof.
  unfold blank, at_range. cbn [fst snd]. apply forallb_impl. intros c H. unfold hspace in H.
  now apply andb_true_iff in H.
Qed.

Lemma leaf_line_cont inp st e t lf : is_cont inp st e t lf -> leaf_line lf = (a_index st, e) /\ l_line lf = a_line st.
Proof. destruct 1; split; reflexivity. Qed.

Lemma OInv_step inp st st' :
  AInv st -> OInv inp st -> a_index st < length inp -> step inp st = SOk st' -> OInv inp st'.
Proof.
  intros HI [(mid & O1 & O2) O3 (l & bl & O4 & O5 & O6)] Hlt Hs.
  destruct (step_change inp st st' HI ltac:(lia) Hs) as (t & e & Hsc & Hch).
  destruct (scan_ok inp (a_index st) _ _ ltac:(lia) Hsc) as (Hie & Hle & Htok).
  assert (a_heap st <> []) as Hne.
  { pose proof (s_len _ (i_s _ _ _ _ _ HI)). destruct (a_heap st); [cbn in *; lia|discriminate]. }
  pose proof (proj1 (line_end_ends _ _) Hle) as [Hlen Hen].
  assert (tiles inp (a_index st) [(a_index st, e)] (S e)) as Htile by (constructor; auto; constructor).
  destruct Hch as [n p g e' Hcr Hp Hg Hcore Hm Hc Hix Hee|c lf Hic Hlce Hh Hm Hc Hix Hli|op v -> Hh Hm Hc Hix Hli|q -> Hh Hm Hc Hix Hli].
  - assert (heap_lines (a_heap st') = heap_lines (a_heap st) ++ node_lines n) as Hl.
    { transitivity (over node_lines (app_upd (a_heap st) n p g)).
      - apply over_core; [apply node_lines_ext|assumption].
      - apply over_app_upd; auto. apply node_lines_ext. }
    destruct (created_tail _ _ _ _ _ _ _ _ Hcr Hle Htok) as (C1 & _).
    assert (tiles inp (a_index st) ((a_index st, e) :: map leaf_line (tail_leaves n)) (S e')) as C2
      by (constructor; auto).
    rewrite node_lines_eq, (created_comments _ _ _ _ _ _ _ _ Hcr), (created_range _ _ _ _ _ _ _ _ Hcr) in Hl.
    constructor; rewrite ?Hl, ?Hm, ?Hc, ?Hix; cbn [olist map].
    + exists (S e'). split; [|cbn; lia]. apply ascending_app. exists mid. split; [assumption|].
      apply ascending_app. exists (a_index st). split; [assumption|]. now apply tiles_ascending in C2.
    + rewrite app_nil_r. rewrite map_app in O3. apply ascending_app in O3 as (m & O3 & O3').
      eapply ascending_weaken; [| |exact O3]; [lia|]. apply ascending_le in O3'. lia.
    + exists (l ++ (a_index st, e) :: map leaf_line (tail_leaves n)), bl.
      split; [eapply tiles_app; eauto|]. split; [assumption|]. rewrite O6.
      cbn [app]. rewrite <- !app_assoc. apply Permutation_app_head.
      set (A := map leaf_line (a_meta st)). set (B := map leaf_line (olist (a_comments st))).
      set (C := (a_index st, e) :: map leaf_line (tail_leaves n)).
      transitivity (B ++ A ++ bl ++ C).
      * rewrite !app_assoc. do 2 apply Permutation_app_tail. apply Permutation_app_comm.
      * apply Permutation_app_head. rewrite (app_assoc A bl C). apply Permutation_app_comm.
  - destruct (leaf_line_cont _ _ _ _ _ Hic) as [Hll _].
    assert (heap_lines (a_heap st') = heap_lines (a_heap st) ++ [(a_index st, e)]) as Hl.
    { rewrite Hh, <- Hll. pose proof (i_lce _ _ _ _ _ HI) as Hk. rewrite Hlce in Hk. destruct Hk as [Hk1 Hk2].
      pose proof (d_type _ (i_d _ _ _ _ _ HI) c ltac:(lia)) as Hty.
      destruct (continuable_no_lines _ Hty Hk2) as [N1 N2].
      apply (over_last node_lines); [assumption| |now apply cont_lines].
      destruct c; [|lia]. exfalso. unfold continuable in Hk2.
      pose proof (s_doc _ (i_s _ _ _ _ _ HI)) as Hd. unfold ncls in Hd.
      destruct (n_type (hget (a_heap st) 0)); try discriminate; contradiction. }
    constructor; rewrite ?Hl, ?Hm, ?Hc, ?Hix; cbn [olist map].
    + exists (S e). split; [|cbn; lia]. apply ascending_app. exists (a_index st). split.
      * eapply ascending_weaken; [| |exact O1]; [lia|]. now apply ascending_le in O2.
      * cbn. lia.
    + rewrite app_nil_r, flush_eq. eapply ascending_weaken; [| |exact O3]; lia.
    + exists (l ++ [(a_index st, e)]), bl. split; [eapply tiles_app; eauto|]. split; [assumption|].
      rewrite O6, flush_eq, map_app. cbn [app]. rewrite <- !app_assoc. apply Permutation_app_head.
      set (X := [(a_index st, e)]). rewrite (app_assoc _ _ (bl ++ X)), (app_assoc (_ ++ _) bl X).
      rewrite Permutation_app_comm. apply Permutation_app_head. now rewrite <- app_assoc.
  - constructor; rewrite ?Hh, ?Hm, ?Hc, ?Hix; cbn [olist map].
    + exists mid. split; [assumption|]. rewrite map_app. apply ascending_app. exists (a_index st).
      split; [assumption|]. cbn. lia.
    + rewrite app_assoc, map_app. apply ascending_app. exists (a_index st). split; [assumption|]. cbn. lia.
    + exists (l ++ [(a_index st, e)]), bl. split; [eapply tiles_app; eauto|]. split; [assumption|].
      rewrite O6, map_app, <- !app_assoc. do 3 apply Permutation_app_head. cbn. apply Permutation_app_comm.
  - constructor; rewrite ?Hh, ?Hm, ?Hc, ?Hix; cbn [olist map].
    + exists mid. split; [assumption|]. cbn. apply ascending_le in O2. lia.
    + rewrite app_nil_r, flush_eq. eapply ascending_weaken; [| |exact O3]; lia.
    + exists (l ++ [(a_index st, e)]), (bl ++ [(a_index st, e)]). split; [eapply tiles_app; eauto|]. split.
      * apply Forall_app. split; [assumption|]. constructor; [|constructor].
        destruct Htok as (_ & _ & Hb). now apply blank_line.
      * rewrite O6, flush_eq, map_app. cbn [app]. now rewrite <- !app_assoc.
Qed.

Theorem reach_order inp st : reach inp st -> OInv inp st.
Proof.
  induction 1 as [|st st' Hr IH Hlt Hs].
  - constructor; cbn.
    + exists 0. cbn. lia.
    + lia.
    + exists [], []. repeat constructor.
  - apply OInv_step with st; auto. now apply reach_inv in Hr.
Qed.
