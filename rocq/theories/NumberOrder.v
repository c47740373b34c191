(** NumberOrder: line numbers are distinct and in the order of the lines. *)
From Coq Require Import Permutation.
From Verif Require Import Base Grammar Types Scan Analyzer TokenStep ScanProofs ScanFacts StepProofs HeapFacts AnalyzerInv
  AnalyzerLoop StepChange SpecText AnalyzerText AnalyzerTiles AnalyzerLines.

Notation num := (nat * (nat * nat))%type.
Definition same_order (l : list num) : Prop := forall x y, In x l -> In y l -> fst x < fst y -> fst (snd x) < fst (snd y).
Definition under (n i : nat) (l : list num) : Prop := forall x, In x l -> fst x < n /\ fst (snd x) < i.
Definition over_from (n i : nat) (l : list num) : Prop := forall x, In x l -> n <= fst x /\ i <= fst (snd x).
Record ordered (l : list num) : Prop := { or_nodup : NoDup (map fst l); or_same : same_order l }.

Lemma ordered_perm l l' : Permutation l l' -> ordered l -> ordered l'.
Proof.
  intros P [H1 H2]. split; [exact (Permutation_NoDup (Permutation_map fst P) H1)|].
  intros x y Hx Hy. apply H2; [exact (Permutation_in _ (Permutation_sym P) Hx)|exact (Permutation_in _ (Permutation_sym P) Hy)].
Qed.
Lemma nodup_app {A} (l l' : list A) : NoDup l -> NoDup l' -> (forall x, In x l -> In x l' -> False) -> NoDup (l ++ l').
Proof.
  induction l as [|x l IH]; intros H1 H2 H3; [assumption|]. inversion_clear H1 as [|? ? N1 N2]. cbn. constructor.
  - intro H. apply in_app_iff in H as [H|H]; [contradiction|]. apply (H3 x); [now left|assumption].
  - apply IH; [assumption|assumption|]. intros y Hy. apply H3. now right.
Qed.
Lemma ordered_app n i l l' : ordered l -> ordered l' -> under n i l -> over_from n i l' -> ordered (l ++ l').
Proof.
  intros [N1 O1] [N2 O2] U V. split.
  - rewrite map_app. apply nodup_app; [assumption|assumption|]. intros x Hx Hy. apply in_map_iff in Hx as (a & <- & Ha). apply in_map_iff in Hy as (b & E & Hb).
    apply U in Ha. apply V in Hb. lia.
  - intros x y Hx Hy Hlt. apply in_app_iff in Hx, Hy. destruct Hx as [Hx|Hx], Hy as [Hy|Hy].
    + now apply O1. + apply U in Hx. apply V in Hy. lia. + apply V in Hx. apply U in Hy. lia. + now apply O2.
Qed.
Lemma ordered_nil : ordered []. Proof. split; [constructor|intros x y []]. Qed.
Lemma ordered_cons x l : ordered l -> over_from (S (fst x)) (S (fst (snd x))) l -> ordered (x :: l).
Proof.
  intros H1 H2. apply (ordered_app (S (fst x)) (S (fst (snd x))) [x]); [|assumption| |assumption].
  - split; [repeat constructor; intros []|]. intros a b [<-|[]] [<-|[]]. lia.
  - intros a [<-|[]]. lia.
Qed.
Lemma tiles_ordered inp i ls j line : tiles inp i (map leaf_line ls) j -> (forall k lf, nth_error ls k = Some lf -> l_line lf = line + k) ->
  ordered (map leaf_num ls) /\ over_from line i (map leaf_num ls) /\ under (line + length ls) j (map leaf_num ls).
Proof.
  revert i line. induction ls as [|lf ls IH]; intros i line Ht Hn; cbn [map] in *.
  - split; [apply ordered_nil|]. split; intros x [].
  - destruct (leaf_line lf) as [b e] eqn:El. inversion Ht as [|? ? ? ? Hbe Hel Hen Htl]; subst.
    destruct (IH (S e) (S line)) as (I1 & I2 & I3); [assumption|intros k x Hk; specialize (Hn (S k) x Hk); lia|].
    pose proof (Hn 0 lf eq_refl) as H0. assert (S e <= j) as Hj.
    { clear - Htl. remember (map leaf_line ls) as sp. clear Heqsp. revert Htl. generalize (S e). intros k H. induction H; lia. }
    split; [|split].
    + apply ordered_cons; [assumption|]. unfold leaf_num. rewrite El. cbn [fst snd]. intros x Hx. apply I2 in Hx. lia.
    + intros x [<-|Hx]; [unfold leaf_num; rewrite El; cbn [fst snd]; lia|]. apply I2 in Hx. lia.
    + intros x [<-|Hx]; [unfold leaf_num; rewrite El; cbn [fst snd length]; lia|]. apply I3 in Hx. cbn [length]. lia.
Qed.

Definition all_nums (st : ast) : list num := heap_nums (a_heap st) ++ map leaf_num (a_meta st) ++ map leaf_num (olist (a_comments st)).
Record NInv (st : ast) : Prop := { ni_ordered : ordered (all_nums st); ni_under : under (a_line st) (a_index st) (all_nums st) }.

Lemma NInv_add st st' new : NInv st -> Permutation (all_nums st ++ new) (all_nums st') -> ordered new -> over_from (a_line st) (a_index st) new ->
  a_line st <= a_line st' -> a_index st <= a_index st' -> under (a_line st') (a_index st') new -> NInv st'.
Proof.
  intros [H1 H2] P H3 H4 H5 H6 H7. split.
  - eapply ordered_perm; [exact P|]. now apply (ordered_app (a_line st) (a_index st)).
  - intros x Hx. apply (Permutation_in _ (Permutation_sym P)) in Hx. apply in_app_iff in Hx as [Hx|Hx]; [|now apply H7]. apply H2 in Hx. lia.
Qed.
Lemma NInv_step inp st st' : AInv st -> NInv st -> a_index st < length inp -> step inp st = SOk st' -> NInv st'.
Proof.
  intros HI HL Hlt Hs.
  destruct (step_change inp st st' HI ltac:(lia) Hs) as (t & e & Hsc & Hch).
  destruct (scan_ok inp (a_index st) _ _ ltac:(lia) Hsc) as (Hie & Hle & Htok).
  assert (a_heap st <> []) as Hne.
  { pose proof (s_len _ (i_s _ _ _ _ _ HI)). destruct (a_heap st); [cbn in *; lia|discriminate]. }
  assert (ordered [(a_line st, (a_index st, e))]) as Hone by (apply ordered_cons; [apply ordered_nil|intros x []]).
  assert (over_from (a_line st) (a_index st) [(a_line st, (a_index st, e))]) as Hov by (intros x [<-|[]]; cbn; lia).
  destruct Hch as [n p g e' Hcr Hp Hg Hcore Hm Hc Hix Hee|c lf Hic Hlce Hh Hm Hc Hix Hli|op v -> Hh Hm Hc Hix Hli|q -> Hh Hm Hc Hix Hli].
  - assert (heap_nums (a_heap st') = heap_nums (a_heap st) ++ node_nums n) as Hl.
    { transitivity (over node_nums (app_upd (a_heap st) n p g)).
      - apply over_core; [apply node_nums_ext|assumption].
      - apply over_app_upd; auto. apply node_nums_ext. }
    destruct (created_tail _ _ _ _ _ _ _ _ Hcr Hle Htok) as (C1 & C2 & C3 & C4).
    destruct (tiles_ordered inp _ _ _ _ C1 C2) as (N1 & N2 & N3).
    apply (NInv_add st st' ((a_line st, (a_index st, e)) :: map leaf_num (tail_leaves n)) HL).
    + unfold all_nums. rewrite Hl, Hm, Hc, node_nums_eq, (created_comments _ _ _ _ _ _ _ _ Hcr), (created_range _ _ _ _ _ _ _ _ Hcr), (created_line _ _ _ _ _ _ _ _ Hcr). cbn [olist map].
      rewrite app_nil_r, <- !app_assoc. apply Permutation_app_head. rewrite Permutation_app_comm, <- !app_assoc. apply Permutation_refl.
    + apply ordered_cons; [assumption|]. intros x Hx. apply N2 in Hx. cbn [fst snd]. lia.
    + intros x [<-|Hx]; [cbn; lia|]. apply N2 in Hx. lia.
    + lia.
    + lia.
    + intros x [<-|Hx]; [cbn; lia|]. apply N3 in Hx. lia.
  - destruct (leaf_line_cont _ _ _ _ _ Hic) as [Hll Hll'].
    pose proof (i_lce _ _ _ _ _ HI) as Hk. rewrite Hlce in Hk. destruct Hk as [Hk1 Hk2].
    assert (heap_nums (a_heap st') = heap_nums (a_heap st) ++ [(a_line st, (a_index st, e))]) as Hl.
    { rewrite Hh.
      pose proof (d_type _ (i_d _ _ _ _ _ HI) c ltac:(lia)) as Hty.
      destruct (continuable_no_lines _ Hty Hk2) as [N1 N2].
      rewrite <- Hll, <- Hll'. apply (over_last node_nums); [assumption| |now apply cont_nums].
      destruct c; [|lia]. exfalso. unfold continuable in Hk2.
      pose proof (s_doc _ (i_s _ _ _ _ _ HI)) as Hd. unfold ncls in Hd.
      destruct (n_type (hget (a_heap st) 0)); try discriminate; contradiction. }
    apply (NInv_add st st' [(a_line st, (a_index st, e))] HL); [|assumption|assumption|lia|lia|intros x [<-|[]]; cbn; lia].
    unfold all_nums. rewrite Hl, Hm, Hc, flush_eq, map_app. cbn [olist map]. rewrite app_nil_r, <- !app_assoc. apply Permutation_app_head.
    rewrite (Permutation_app_comm [_]). rewrite <- app_assoc. apply Permutation_refl.
  - apply (NInv_add st st' [(a_line st, (a_index st, e))] HL); [|assumption|assumption|lia|lia|intros x [<-|[]]; cbn; lia].
    unfold all_nums. rewrite Hh, Hm, Hc. cbn [olist]. rewrite map_app, <- !app_assoc. apply Permutation_refl.
  - apply (NInv_add st st' [] HL); [|apply ordered_nil|intros x []|lia|lia|intros x []].
    unfold all_nums. rewrite Hh, Hm, Hc, flush_eq, map_app. cbn [olist map]. rewrite !app_nil_r. apply Permutation_refl.
Qed.
Theorem reach_nums inp st : reach inp st -> NInv st.
Proof.
  induction 1 as [|st st' Hr IH Hlt Hs].
  - split; cbn; [apply ordered_nil|intros x []].
  - apply (NInv_step inp st); auto. now apply reach_inv in Hr.
Qed.
