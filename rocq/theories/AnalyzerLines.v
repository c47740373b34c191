(** AnalyzerLines: line numbers. *)
From Verif Require Import Base Grammar Types Scan Analyzer TokenStep ScanProofs ScanFacts StepProofs HeapFacts AnalyzerInv
  AnalyzerLoop StepChange SpecText AnalyzerText AnalyzerTiles.

(** lines before position [i]; one more behind the end of a text without final line feed *)
Definition lines_before (inp : text) (i : nat) : nat := line_feeds_before inp i + (i - length inp).

Lemma firstn_add {A} (l : list A) i k : firstn (i + k) l = firstn i l ++ firstn k (skipn i l).
Proof.
  revert l. induction i as [|i IH]; intro l; [reflexivity|].
  destruct l as [|c l]; cbn; [now rewrite firstn_nil|]. now rewrite IH.
Qed.
Lemma feeds_split inp i e : i <= e ->
  line_feeds_before inp e = line_feeds_before inp i + length (filter (fun c => N.eqb c nl) (slice inp i e)).
Proof.
  intro H. unfold line_feeds_before, slice.
  assert (firstn e inp = firstn i inp ++ firstn (e - i) (skipn i inp)) as ->.
  { replace e with (i + (e - i)) at 1 by lia. apply firstn_add. }
  now rewrite filter_app, app_length.
Qed.
Lemma no_feeds t : ~ In nl t -> filter (fun c => N.eqb c nl) t = [].
Proof.
  induction t as [|c t IH]; intro H; [reflexivity|]. cbn. destruct (N.eqb_spec c nl) as [->|Hne].
  - exfalso. apply H. now left.
  - apply IH. intro. apply H. now right.
Qed.
Lemma slice_one inp e c : nth_error inp e = Some c -> slice inp e (S e) = [c].
Proof.
  unfold slice. replace (S e - e) with 1 by lia. revert e. induction inp as [|x inp IH]; intros [|e]; cbn; try discriminate.
  - now intros [= ->].
  - apply IH.
Qed.

Lemma lines_next inp i e : i <= e -> e <= length inp -> ends_line inp e -> single_line inp (i, e) ->
  lines_before inp (S e) = S (lines_before inp i).
Proof.
  intros H1 H2 H3 H4. unfold lines_before. destruct (Nat.eq_dec e (length inp)) as [->|Hne].
  - replace (line_feeds_before inp (S (length inp))) with (line_feeds_before inp (length inp))
      by (unfold line_feeds_before; now rewrite !firstn_all2 by lia).
    rewrite (feeds_split inp i (length inp)) by lia. unfold single_line, at_range in H4. cbn [fst snd] in H4.
    rewrite (no_feeds _ H4). cbn [length]. lia.
  - destruct H3 as [->|H3]; [lia|]. rewrite (feeds_split inp e (S e)) by lia. rewrite (slice_one _ _ _ H3).
    rewrite (feeds_split inp i e) by lia. unfold single_line, at_range in H4. cbn [fst snd] in H4.
    rewrite (no_feeds _ H4). change (filter (fun c => N.eqb c nl) [nl]) with [nl]. cbn [length]. lia.
Qed.

(** * Only keyed instructions can extend over several lines *)

Lemma slice_eol inp i r : skipn i inp = r -> slice inp i (eol i r) = line_of r.
Proof.
  intro H. unfold slice, eol. replace (i + length (line_of r) - i) with (length (line_of r)) by lia. rewrite H.
  unfold line_of. rewrite <- (take_drop_while not_nl r) at 2.
  rewrite firstn_app, Nat.sub_diag, firstn_all, firstn_O. apply app_nil_r.
Qed.
Lemma eol_spaces i r : eol (i + spaces r) (after_spaces r) = eol i r.
Proof.
  unfold eol, spaces, after_spaces, line_of. induction r as [|c r IH]; cbn; [lia|].
  destruct (hspace c) eqn:E; cbn.
  - assert (not_nl c = true) as -> by (unfold hspace in E; now apply andb_true_iff in E). cbn. lia.
  - lia.
Qed.
Lemma scan_single inp i t e : scan i (skipn i inp) = Some (t, e) ->
  match t with
  | TSection _ _ _ | TField _ _ _ | TEntry _ _ _ | TCopy _ _ _ => True
  | _ => single_line inp (i, e)
  end.
Proof.
  remember (skipn i inp) as r0 eqn:Er. symmetry in Er.
  assert (single_line inp (i, eol i r0)) as Hs.
  { unfold single_line, at_range. cbn [fst snd]. rewrite (slice_eol _ _ _ Er). apply not_nl_in. apply takewhile_all. }
  rewrite <- eol_spaces in Hs.
  assert (single_line inp (i, i + spaces r0)) as Hsp.
  { unfold single_line, at_range, slice. cbn [fst snd]. rewrite Er. replace (i + spaces r0 - i) with (spaces r0) by lia.
    unfold spaces. rewrite <- (take_drop_while hspace r0) at 2.
    rewrite firstn_app, Nat.sub_diag, firstn_all, firstn_O, app_nil_r. apply not_nl_in.
    eapply forallb_impl; [|apply takewhile_all]. intros c Hc. unfold hspace in Hc. now apply andb_true_iff in Hc. }
  unfold scan. destruct (after_spaces r0) as [|c r1] eqn:Ea.
  - intros [= <- <-]. exact Hsp.
  - destruct (N.eqb c nl); [intros [= <- <-]; exact Hsp|].
    destruct (N.eqb c c_pipe); [intros [= <- <-]; exact Hs|].
    destruct (N.eqb c c_bslash); [intros [= <- <-]; exact Hs|].
    destruct (N.eqb c c_gt); [intros [= <- <-]; exact Hs|].
    destruct (N.eqb c c_dash).
    { destruct (Nat.eqb _ _); [intros [= <- <-]; exact Hs|].
      destruct (opt_value _ _); [|discriminate]. intros [= <- <-]. exact Hs. }
    destruct (N.eqb c c_hash).
    { destruct (scan_key _ _ _ _ _) as [[k [t0 e0]]|]; [|discriminate]. intros [= <- <-]. exact I. }
    destruct (scan_key _ _ _ _ _) as [[k [[o v|o v|o v] e0]]|]; [| | |discriminate]; intros [= <- <-]; exact I.
Qed.

(** * The invariant *)

(** number of the line = line feeds before it *)
Definition num_ok (inp : text) (x : nat * (nat * nat)) : Prop := fst x = line_feeds_before inp (fst (snd x)).

Definition own_lines (h : heap) : list (nat * nat) := map (fun n => line_range (n_ranges n)) (tl h).

Definition LInv (inp : text) (st : ast) : Prop :=
  Forall (single_line inp) (own_lines (a_heap st)) ->
  a_line st = lines_before inp (a_index st) /\
  Forall (num_ok inp) (heap_nums (a_heap st)) /\
  Forall (num_ok inp) (map leaf_num (a_meta st)) /\
  Forall (num_ok inp) (map leaf_num (olist (a_comments st))).

Lemma own_lines_over h : own_lines h = over (fun n => [line_range (n_ranges n)]) h.
Proof. unfold own_lines, over. generalize (tl h). induction l as [|x l IH]; cbn; [reflexivity|]. now rewrite IH. Qed.
Lemma own_ext x y : stat x = stat y -> n_conts x = n_conts y -> n_lines x = n_lines y -> n_end x = n_end y ->
  [line_range (n_ranges x)] = [line_range (n_ranges y)].
Proof. intros H _ _ _. now rewrite (stat_ranges _ _ H). Qed.

Lemma lines_before_in inp i : i <= length inp -> lines_before inp i = line_feeds_before inp i.
Proof. intro H. unfold lines_before. lia. Qed.

Lemma tiles_nums inp i ls j line :
  tiles inp i (map leaf_line ls) j ->
  Forall (fun lf => single_line inp (leaf_line lf)) ls ->
  (forall k lf, nth_error ls k = Some lf -> l_line lf = line + k) ->
  lines_before inp i = line ->
  Forall (num_ok inp) (map leaf_num ls) /\ lines_before inp j = line + length ls.
Proof.
  revert i line. induction ls as [|lf ls IH]; intros i line Ht Hs Hn Hl; cbn [map] in *.
  - inversion Ht; subst. split; [constructor|cbn; lia].
  - inversion_clear Hs as [|? ? Hs1 Hs2]. unfold num_ok, leaf_num at 1.
    destruct (leaf_line lf) as [b e] eqn:El.
    inversion Ht as [|? ? ? ? Hbe Hel Hen Htl]; subst.
    pose proof (lines_next inp b e Hbe Hel Hen Hs1) as Hnx.
    destruct (IH (S e) (S (lines_before inp b))) as [I1 I2]; auto.
    + intros k x Hk. specialize (Hn (S k) x Hk). lia.
    + split.
      * constructor; [|assumption]. cbn. specialize (Hn 0 lf eq_refl). cbn [fst].
        rewrite Hn, lines_before_in by lia. apply Nat.add_0_r.
      * cbn [length]. lia.
Qed.

Lemma LInv_step inp st st' :
  AInv st -> LInv inp st -> a_index st < length inp -> step inp st = SOk st' -> LInv inp st'.
Proof.
  intros HI HL Hlt Hs Hone.
  destruct (step_change inp st st' HI ltac:(lia) Hs) as (t & e & Hsc & Hch).
  destruct (scan_ok inp (a_index st) _ _ ltac:(lia) Hsc) as (Hie & Hle & Htok).
  pose proof (scan_single inp _ _ _ Hsc) as Hsing.
  assert (a_heap st <> []) as Hne.
  { pose proof (s_len _ (i_s _ _ _ _ _ HI)). destruct (a_heap st); [cbn in *; lia|discriminate]. }
  pose proof (proj1 (line_end_ends _ _) Hle) as [Hlen Hen].
  destruct Hch as [n p g e' Hcr Hp Hg Hcore Hm Hc Hix Hee|c lf Hic Hlce Hh Hm Hc Hix Hli|op v -> Hh Hm Hc Hix Hli|q -> Hh Hm Hc Hix Hli].
  - assert (own_lines (a_heap st') = own_lines (a_heap st) ++ [(a_index st, e)]) as Ho.
    { rewrite !own_lines_over, <- (created_range _ _ _ _ _ _ _ _ Hcr).
      rewrite (over_core _ own_ext _ _ Hcore). apply (over_app_upd _ own_ext); auto. }
    assert (heap_nums (a_heap st') = heap_nums (a_heap st) ++ node_nums n) as Hl.
    { transitivity (over node_nums (app_upd (a_heap st) n p g)).
      - apply over_core; [apply node_nums_ext|assumption].
      - apply over_app_upd; auto. apply node_nums_ext. }
    rewrite Ho in Hone. apply Forall_app in Hone as [Hone H1]. inversion_clear H1.
    destruct (HL Hone) as (L1 & L2 & L3 & L4).
    pose proof (lines_next inp _ _ Hie Hlen Hen H) as Hnx.
    destruct (created_tail _ _ _ _ _ _ _ _ Hcr Hle Htok) as (C1 & C2 & C3 & C4).
    destruct (tiles_nums inp _ _ _ _ C1 C4 C2) as [N1 N2]; [lia|].
    split; [rewrite Hix, N2; exact C3|]. split; [|split].
    + rewrite Hl, node_nums_eq, (created_comments _ _ _ _ _ _ _ _ Hcr), (created_range _ _ _ _ _ _ _ _ Hcr),
        (created_line _ _ _ _ _ _ _ _ Hcr).
      apply Forall_app. split; [assumption|]. apply Forall_app. split; [assumption|].
      constructor; [|assumption]. unfold num_ok. cbn. rewrite L1. apply lines_before_in. lia.
    + now rewrite Hm.
    + rewrite Hc. constructor.
  - destruct (leaf_line_cont _ _ _ _ _ Hic) as [Hll Hll'].
    assert (single_line inp (a_index st, e)) as Hsg by (destruct Hic; exact Hsing).
    pose proof (i_lce _ _ _ _ _ HI) as Hk. rewrite Hlce in Hk. destruct Hk as [Hk1 Hk2].
    assert (heap_nums (a_heap st') = heap_nums (a_heap st) ++ [(a_line st, (a_index st, e))]) as Hl.
    { rewrite Hh.
      pose proof (d_type _ (i_d _ _ _ _ _ HI) c ltac:(lia)) as Hty.
      destruct (continuable_no_lines _ Hty Hk2) as [N1 N2].
      rewrite <- Hll, <- Hll'. apply (over_last node_nums); [assumption| |now apply cont_nums].
      destruct c; [|lia]. exfalso. unfold continuable in Hk2.
      pose proof (s_doc _ (i_s _ _ _ _ _ HI)) as Hd. unfold ncls in Hd.
      destruct (n_type (hget (a_heap st) 0)); try discriminate; contradiction. }
    assert (own_lines (a_heap st') = own_lines (a_heap st)) as Ho.
    { rewrite Hh. unfold hupd, own_lines. destruct c; [now rewrite tl_upd0|]. rewrite tl_upd.
      generalize (tl (a_heap st)) as l. intro l. revert c Hlce Hh Hk1 Hk2. clear. intros c _ _ _ _. revert c.
      induction l as [|x l IH]; intros [|c]; cbn [upd map]; try reflexivity.
      - f_equal. now rewrite (stat_ranges _ _ (benign_cont lf x)).
      - now rewrite IH. }
    rewrite Ho in Hone. destruct (HL Hone) as (L1 & L2 & L3 & L4).
    split; [rewrite Hix, Hli, L1; symmetry; now apply lines_next|]. split; [|split].
    + rewrite Hl. apply Forall_app. split; [assumption|]. constructor; [|constructor].
      unfold num_ok. cbn. rewrite L1. apply lines_before_in. lia.
    + rewrite Hm, flush_eq, map_app. apply Forall_app. auto.
    + rewrite Hc. constructor.
  - rewrite Hh in Hone. destruct (HL Hone) as (L1 & L2 & L3 & L4).
    split; [rewrite Hix, Hli, L1; symmetry; now apply lines_next|]. rewrite Hh, Hm, Hc. split; [|split]; auto.
    cbn [olist]. rewrite map_app. apply Forall_app. split; [assumption|]. constructor; [|constructor].
    unfold num_ok. cbn. rewrite L1. apply lines_before_in. lia.
  - rewrite Hh in Hone. destruct (HL Hone) as (L1 & L2 & L3 & L4).
    split; [rewrite Hix, Hli, L1; symmetry; now apply lines_next|]. rewrite Hh, Hm, Hc. split; [|split]; auto.
    + rewrite flush_eq, map_app. apply Forall_app. auto.
    + constructor.
Qed.

Theorem reach_lines inp st : reach inp st -> LInv inp st.
Proof.
  induction 1 as [|st st' Hr IH Hlt Hs].
  - intros _. cbn. repeat split; constructor.
  - apply LInv_step with st; auto. now apply reach_inv in Hr.
Qed.
