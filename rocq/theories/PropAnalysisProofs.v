(** PropAnalysisProofs: the theorems of [PropAnalysis], from the invariants. *)
From Coq Require Import Permutation.
From Verif Require Import Base Types Scan Analyzer TokenStep ScanFacts HeapFacts AnalyzerInv AnalyzerLoop StepChange
  Context SpecText SpecTree SpecRun AnalyzerText AnalyzerTiles AnalyzerLines AnalyzerTree AnalyzerBlocks AnalyzerFinal NumberOrder.

Lemma hanging_faithful inp h meta l : Forall (node_faithful inp) h -> Forall (leaf_faithful inp) meta ->
  In l (flat_map hanging h ++ meta) -> leaf_faithful inp l.
Proof.
  rewrite !Forall_forall. intros H1 H2 H. apply in_app_or in H as [H|H]; [|auto].
  apply in_flat_map in H as (n & Hn & Hl). specialize (H1 n Hn). destruct H1 as (_ & _ & _ & _ & _ & H1).
  rewrite Forall_forall in H1. auto.
Qed.

Lemma rget_in rs nm s : rget rs nm = Some s -> In (nm, s) rs.
Proof.
  induction rs as [|[m r] rs IH]; cbn; [discriminate|]. destruct (rname_eqb m nm) eqn:E.
  - intros [= ->]. left. f_equal. now apply rname_eqb_eq.
  - intro H. right. auto.
Qed.

Lemma texts_are_source inp st lc : analyze inp = AOk st lc ->
  (forall n, In n (tl (a_heap st)) ->
     n_key n = option_map (at_range inp) (rget (n_ranges n) R_key) /\
     n_value n = option_map (at_range inp) (rget (n_ranges n) R_value) /\
     n_template n = option_map (at_range inp) (rget (n_ranges n) R_template) /\
     (n_type n <> LIST_ITEM -> n_key n <> None)) /\
  (forall l, In l (flat_map hanging (tl (a_heap st)) ++ a_meta st) ->
     (l_type l = Some COMMENT -> l_text l = option_map (at_range inp) (rget (l_ranges l) R_comment)) /\
     (l_type l = Some CONTINUATION -> l_text l = option_map (at_range inp) (rget (l_ranges l) R_value))).
Proof.
  intro Ha. destruct (final_faithful _ _ _ Ha) as [F1 F2]. split.
  - intros n Hn. rewrite Forall_forall in F1. destruct (F1 n Hn) as (_ & _ & H1 & H2 & H3 & _).
    repeat (split; [assumption|]). destruct (final_reach _ _ _ Ha) as (st0 & Hr & _ & E & _).
    pose proof (reach_keyed _ _ Hr) as Hk. rewrite <- E, Forall_forall in Hk. intro Ht.
    destruct (Hk n Hn) as [H|H]; [|assumption]. apply ncls_item in H. contradiction.
  - intros l Hl. pose proof (hanging_faithful _ _ _ _ F1 F2 Hl) as [_ H].
    split; intro E; rewrite E in H; apply H.
Qed.

Lemma texts_trimmed inp st lc : analyze inp = AOk st lc ->
  (forall n k, In n (tl (a_heap st)) -> n_key n = Some k \/ n_value n = Some k \/ n_template n = Some k -> trimmed k) /\
  (forall l v, In l (flat_map hanging (tl (a_heap st)) ++ a_meta st) ->
     l_type l = Some COMMENT \/ l_type l = Some CONTINUATION -> l_text l = Some v -> trimmed v).
Proof.
  intro Ha. destruct (final_faithful _ _ _ Ha) as [F1 F2]. split.
  - intros n k Hn. rewrite Forall_forall in F1. destruct (F1 n Hn) as (_ & Ht & -> & -> & -> & _).
    intros [H|[H|H]]; match type of H with option_map _ (rget _ ?nm) = _ => destruct (rget (n_ranges n) nm) as [s|] eqn:E end;
      try discriminate; cbn in H; injection H as <-; (eapply Ht; [apply rget_in; exact E|reflexivity]).
  - intros l v Hl Ht Hv. pose proof (hanging_faithful _ _ _ _ F1 F2 Hl) as [_ H].
    destruct Ht as [Ht|Ht]; rewrite Ht in H; destruct H as [H1 H2]; rewrite H1 in Hv;
    match type of Hv with option_map _ (rget _ ?nm) = _ => destruct (rget (l_ranges l) nm) as [s|] eqn:E end;
      try discriminate; cbn in Hv; injection Hv as <-; (eapply H2; [apply rget_in; exact E|reflexivity]).
Qed.

Lemma ranges_nested inp st lc : analyze inp = AOk st lc ->
  (forall n, In n (tl (a_heap st)) -> nested inp (n_ranges n)) /\
  (forall l, In l (flat_map hanging (tl (a_heap st)) ++ a_meta st) -> nested inp (l_ranges l)).
Proof.
  intro Ha. destruct (final_faithful _ _ _ Ha) as [F1 F2]. split.
  - intros n Hn. rewrite Forall_forall in F1. apply F1, Hn.
  - intros l Hl. now destruct (hanging_faithful _ _ _ _ F1 F2 Hl).
Qed.

Definition crossing : text := U "a
: b
c: d".
Definition st_of (r : ares) : ast := match r with AOk st _ => st | AErr _ st _ => st | _ => init_ast end.
Definition lc_of (r : ares) : nat := match r with AOk _ lc => lc | AErr _ _ lc => lc | _ => 0 end.

Lemma line_numbers_wrong : exists inp st lc n s,
  analyze inp = AOk st lc /\ In (n, s) (heap_nums (a_heap st)) /\ n <> line_feeds_before inp (fst s).
Proof.
  exists crossing, (st_of (analyze crossing)), (lc_of (analyze crossing)), 1, (6, 10).
  split; [vm_compute; reflexivity|]. split; [vm_compute; auto|vm_compute; discriminate].
Qed.
Lemma line_count_wrong : exists inp st lc,
  analyze inp = AOk st lc /\ lc <> S (line_feeds_before inp (length inp)).
Proof.
  exists crossing, (st_of (analyze crossing)), (lc_of (analyze crossing)).
  split; [vm_compute; reflexivity|vm_compute; discriminate].
Qed.

Lemma line_numbers_right inp st lc : analyze inp = AOk st lc ->
  (forall n, In n (tl (a_heap st)) -> single_line inp (line_range (n_ranges n))) ->
  (forall n s, In (n, s) (heap_nums (a_heap st)) -> n = line_feeds_before inp (fst s)) /\
  (forall m, In m (a_meta st) -> l_line m = line_feeds_before inp (fst (leaf_line m))) /\
  lc = S (line_feeds_before inp (length inp)).
Proof.
  intros Ha Hs. destruct (final_lines _ _ _ Ha) as (L1 & L2 & L3).
  - unfold own_lines. rewrite Forall_map, Forall_forall. exact Hs.
  - rewrite Forall_forall in L1, L2. split; [|split; assumption]. intros n s Hin. apply (L1 _ Hin).
Qed.

Lemma document_is_tree inp st lc : analyze inp = AOk st lc -> tree (a_heap st).
Proof.
  intro Ha. destruct (final_reach _ _ _ Ha) as (st0 & Hr & _ & -> & _).
  destruct (reach_inv _ _ Hr) as [HI _]. apply tree_of; apply HI.
Qed.

Lemma multiline_verbatim inp st lc n : analyze inp = AOk st lc ->
  In n (tl (a_heap st)) -> n_type n = MULTILINE_FIELD_BEGIN ->
  exists op key stop,
    rget (n_ranges n) R_multiline_field_operator = Some op /\ rget (n_ranges n) R_key = Some key /\
    first_closing inp (at_range inp op) (at_range inp key) (snd (line_range (n_ranges n))) stop /\
    own_value inp n = between inp (snd (line_range (n_ranges n))) stop.
Proof.
  intros Ha. destruct (final_reach _ _ _ Ha) as (st0 & Hr & _ & -> & _). intros Hn Ht.
  pose proof (reach_multiline _ _ Hr) as H. rewrite Forall_forall in H.
  destruct (H n Hn Ht) as (op & key & stop & lf & e2 & H1 & H2 & H3 & H4 & _). exists op, key, stop. auto.
Qed.

Lemma comments_belong inp st lc n : analyze inp = AOk st lc ->
  In n (tl (a_heap st)) -> own_comments inp (a_meta st) n.
Proof.
  intro Ha. destruct (final_reach _ _ _ Ha) as (st0 & Hr & _ & -> & -> & _). intro Hn.
  pose proof (reach_comments_final _ _ Hr) as H. rewrite Forall_forall in H. auto.
Qed.

Lemma nodup_fst {A B} (l : list (A * B)) a b c : NoDup (map fst l) -> In (a, b) l -> In (a, c) l -> b = c.
Proof.
  induction l as [|[x y] l IH]; intros Hn H1 H2; [destruct H1|]. cbn in Hn. inversion_clear Hn as [|? ? N1 N2]. destruct H1 as [H1|H1], H2 as [H2|H2]; [congruence| | |auto].
  - exfalso. apply N1. injection H1 as -> _. exact (in_map fst _ _ H2).
  - exfalso. apply N1. injection H2 as -> _. exact (in_map fst _ _ H1).
Qed.
Theorem numbers_ordered inp st lc : analyze inp = AOk st lc -> let ns := heap_nums (a_heap st) ++ map leaf_num (a_meta st) in
  NoDup (map fst ns) /\ forall n s, In (n, s) ns -> n < lc /\ forall m t, In (m, t) ns -> (n < m <-> fst s < fst t).
Proof.
  intros Ha ns. unfold ns. clear ns. destruct (final_reach _ _ _ Ha) as (st0 & Hr & _ & -> & -> & _ & _ & El). destruct (reach_nums _ _ Hr) as [[O1 O2] U]. rewrite flush_eq, (map_app leaf_num).
  unfold all_nums in *. split; [assumption|]. intros n s Hs. split.
  - apply U in Hs. cbn in Hs. rewrite El. destruct (N.eqb _ _); [lia|]. destruct inp; [|lia]. inversion Hr; subst; cbn in *; lia.
  - intros m t Ht. split; [intro H; exact (O2 _ _ Hs Ht H)|]. intro H. destruct (Nat.lt_trichotomy n m) as [L|[->|L]]; [assumption| |].
    + assert (s = t) as -> by exact (nodup_fst _ _ _ _ O1 Hs Ht). lia.
    + pose proof (O2 _ _ Ht Hs L) as K. cbn in K. lia.
Qed.
