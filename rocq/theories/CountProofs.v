(** CountProofs: line numbers miss exactly the line feeds inside instructions. *)
From Coq Require Import Permutation.
From Verif Require Import Base Grammar Types Scan Analyzer TokenStep ScanProofs ScanFacts StepProofs HeapFacts AnalyzerInv
  AnalyzerLoop StepChange SpecText AnalyzerText AnalyzerTiles AnalyzerLines NumberOrder AnalyzerFinal SpecCount.

(** * No instruction ends with a line feed *)

Definition shut (inp : text) (e : nat) : Prop := nth_error inp (pred e) <> Some nl.

Lemma in_slice inp i j k c : i <= k -> k < j -> nth_error inp k = Some c -> In c (slice inp i j).
Proof.
  unfold slice. revert i j k. induction inp as [|x inp IH]; intros i j k H1 H2 H3.
  - destruct k; discriminate.
  - destruct i as [|i]; cbn [skipn].
    + destruct j as [|j]; [lia|]. cbn. destruct k as [|k]; cbn in H3.
      * left. congruence.
      * right. specialize (IH 0 j k). cbn [skipn] in IH. rewrite Nat.sub_0_r in IH. apply IH; [lia|lia|assumption].
    + destruct k as [|k]; [lia|]. cbn in H3. replace (j - S i) with (pred j - i) by lia. apply (IH i (pred j) k); [lia|lia|assumption].
Qed.
Lemma shut_range inp i j : i < j -> ~ In nl (slice inp i j) -> shut inp j.
Proof. intros H1 H2 H3. apply H2. apply (in_slice inp i j (pred j)); [lia|lia|assumption]. Qed.
Lemma shut_eol inp i r : at_pos inp i r -> line_of r <> [] \/ shut inp i -> shut inp (eol i r).
Proof.
  intros [H _] Hs. assert (line_of r = [] \/ line_of r <> []) as [E|E] by (destruct (line_of r); [now left|right; discriminate]).
  - unfold eol. rewrite E. cbn [length]. rewrite Nat.add_0_r. destruct Hs as [Hs|Hs]; [contradiction|assumption].
  - apply (shut_range inp i).
    + unfold eol. destruct (line_of r); [congruence|]. cbn [length]. lia.
    + rewrite (slice_eol _ _ _ H). apply not_nl_in. apply takewhile_all.
Qed.
Lemma shut_spaces inp i r : at_pos inp i r -> shut inp i -> shut inp (i + spaces r).
Proof.
  intros Hp Hs. destruct (spaces r) as [|n] eqn:E; [now rewrite Nat.add_0_r|]. rewrite <- E.
  rewrite (split_spaces r) in Hp. apply at_pos_app in Hp as [_ Hp]. fold (spaces r) in Hp.
  apply (shut_range inp i); [lia|]. unfold sub in Hp. cbn [fst snd] in Hp. rewrite Hp. apply not_nl_in.
  eapply forallb_impl; [|apply takewhile_all]. intros c Hc. unfold hspace in Hc. now apply andb_true_iff in Hc.
Qed.
Lemma shut_char inp i c r : at_pos inp i (c :: r) -> c <> nl -> shut inp (S i).
Proof.
  intros Hp Hc. apply at_pos_cons in Hp as [_ Hp]. apply (shut_range inp i); [lia|]. unfold sub in Hp. cbn [fst snd] in Hp.
  rewrite Hp. intros [H|[]]. congruence.
Qed.
Lemma value_line i r s : opt_value i r = Some s -> line_of r <> [].
Proof.
  unfold opt_value. intros H E.
  assert (line_of (after_spaces r) = []) as E2.
  { destruct r as [|c r]; [reflexivity|]. unfold line_of in E. cbn in E. destruct (not_nl c) eqn:Ec; [discriminate|].
    unfold after_spaces. cbn. assert (hspace c = false) as -> by (unfold hspace, not_nl in *; rewrite Ec; apply andb_false_r).
    unfold line_of. cbn. now rewrite Ec. }
  rewrite E2 in H. discriminate.
Qed.
Lemma section_shut inp i r x : at_pos inp i r -> section_tail i r = Some x -> shut inp i -> shut inp (snd x).
Proof.
  intros Hp H Hs. pose proof (shut_spaces _ _ _ Hp Hs) as Hs'. apply at_pos_spaces in Hp.
  unfold section_tail in H. destruct (after_spaces r) as [|c r1]; [now inversion_clear H|].
  destruct (N.eqb_spec c nl) as [->|Hc]; [now inversion_clear H|].
  destruct (N.eqb_spec c c_lt) as [->|]; [|discriminate]. pose proof (at_pos_cons _ _ _ _ Hp) as [Hp1 _].
  destruct r1 as [|d r2].
  - destruct (opt_value (i + spaces r + 1) []) as [t|] eqn:E; [|discriminate]. apply value_line in E. now elim E.
  - destruct (N.eqb d c_lt).
    + destruct (opt_value (i + spaces r + 2) r2) as [t|] eqn:E; [|discriminate]. inversion_clear H. cbn [snd].
      apply at_pos_cons in Hp1 as [Hp1 _]. replace (S (S (i + spaces r))) with (i + spaces r + 2) in Hp1 by lia.
      apply shut_eol; [assumption|]. left. now apply value_line in E.
    + destruct (opt_value (i + spaces r + 1) (d :: r2)) as [t|] eqn:E; [|discriminate]. inversion_clear H. cbn [snd].
      replace (S (i + spaces r)) with (i + spaces r + 1) in Hp1 by lia.
      apply shut_eol; [assumption|]. left. now apply value_line in E.
Qed.
Lemma late_shut inp i r x : at_pos inp i r -> late_tail i r = Some x -> shut inp (snd x).
Proof.
  intros Hp H. apply at_pos_blanks in Hp. unfold late_tail in H. destruct (after_blanks r) as [|c r1]; [discriminate|].
  pose proof (at_pos_cons _ _ _ _ Hp) as [Hp1 _]. rewrite <- Nat.add_1_r in Hp1.
  assert (c <> nl -> shut inp (i + blanks r + 1)) as Hs by (rewrite Nat.add_1_r; apply (shut_char inp _ c r1); assumption).
  destruct (N.eqb_spec c c_colon) as [->|].
  { inversion_clear H. cbn [snd]. apply shut_eol; [assumption|]. right. now apply Hs. }
  destruct (N.eqb_spec c c_eq) as [->|].
  { inversion_clear H. cbn [snd]. apply shut_eol; [assumption|]. right. now apply Hs. }
  destruct (N.eqb_spec c c_lt) as [->|]; [|discriminate].
  destruct (opt_value _ _) as [t|] eqn:E; [|discriminate]. inversion_clear H. cbn [snd].
  apply at_pos_blanks in Hp1. apply shut_eol; [assumption|]. left. now apply value_line in E.
Qed.
Lemma key_shut inp i k : key_ok inp i k -> shut inp (key_hi k).
Proof.
  destruct k as [s|b s x]; cbn [key_ok key_hi].
  - intros ((_ & H1 & _) & _ & _ & _ & H2). now apply (shut_range inp (fst s)).
  - intros (H1 & _ & (_ & H2 & _) & _ & H3 & H4). apply (shut_range inp (fst x)); [assumption|].
    rewrite H3 in H4. unfold sub in H4. rewrite H4. intro H. apply repeat_spec in H. discriminate.
Qed.
Theorem scan_shut inp i t e : i <= length inp -> i < e -> scan i (skipn i inp) = Some (t, e) -> shut inp e.
Proof.
  intros Hi Hlt Hsc. pose proof (scan_single _ _ _ _ Hsc) as Hone.
  assert (at_pos inp i (skipn i inp)) as Hpos by (split; auto).
  assert (single_line inp (i, e) -> shut inp e) as Hs by (intro H; now apply (shut_range inp i)).
  destruct t; auto; clear Hone Hs Hlt; revert Hpos Hsc; generalize (skipn i inp) as r0; intros r0 Hpos;
  apply at_pos_spaces in Hpos; unfold scan; destruct (after_spaces r0) as [|c r1]; try discriminate;
  repeat match goal with
  | |- (if ?b then Some _ else _) = _ -> _ => destruct b; [discriminate|]
  | |- (if N.eqb c c_dash then _ else _) = _ -> _ => destruct (N.eqb c c_dash); [destruct (Nat.eqb _ _); [discriminate|]; destruct (opt_value _ _); discriminate|]
  end;
  destruct (N.eqb_spec c c_hash) as [->|Hh];
  try (destruct (scan_key skey_first _ _ _ _) as [[k' [t' e']]|]; discriminate);
  try (destruct (scan_key key_first key_char late_tail _ _) as [[k' [x e']]|] eqn:E; [|discriminate];
       eapply (scan_key_ok _ _ _ (fun _ x => shut inp (snd x))) in E as [_ E];
         [|apply key_char_nl|apply key_first_space|intros; eapply late_shut; eassumption|exact Hpos];
       destruct x; try discriminate; intros [= _ _ _ <-]; exact E).
  - pose proof (takewhile_op inp _ c_hash r1 Hpos) as (Hp2 & _). apply at_pos_blanks in Hp2.
    destruct (scan_key _ _ _ _ _) as [[k' [t' e']]|] eqn:E; [|discriminate].
    eapply (scan_key_ok _ _ _ (fun j x => shut inp j -> shut inp (snd x))) in E as [Hk E];
         [|apply skey_char_nl|apply skey_first_space|intros; eapply section_shut; eassumption|exact Hp2].
    intros [= _ _ _ <-]. apply E. now apply key_shut in Hk.
Qed.

(** * Counting *)

Lemma feeds_inside_app inp l l' i : feeds_inside inp (l ++ l') i = feeds_inside inp l i + feeds_inside inp l' i.
Proof. induction l as [|s l IH]; cbn [feeds_inside app]; [reflexivity|]. rewrite IH. lia. Qed.
Lemma feeds_inside_all inp l i j : (forall s, In s l -> fst s < i) -> i <= j -> feeds_inside inp l j = feeds_inside inp l i.
Proof.
  intros H Hij. induction l as [|s l IH]; cbn [feeds_inside]; [reflexivity|].
  pose proof (H s (or_introl eq_refl)) as Hs.
  assert (Nat.ltb (fst s) i = true) as -> by (apply Nat.ltb_lt; lia).
  assert (Nat.ltb (fst s) j = true) as -> by (apply Nat.ltb_lt; lia).
  rewrite IH; [reflexivity|]. intros s' Hs'. apply H. now right.
Qed.
Lemma feeds_inside_late inp l i j e : j <= i -> feeds_inside inp (l ++ [(i, e)]) j = feeds_inside inp l j.
Proof.
  intro H. rewrite feeds_inside_app. cbn [feeds_inside fst]. assert (Nat.ltb i j = false) as -> by (apply Nat.ltb_ge; lia). lia.
Qed.
Lemma feeds_inside_early inp l i j e : i < j -> feeds_inside inp (l ++ [(i, e)]) j = feeds_inside inp l j + inner_feeds inp (i, e).
Proof.
  intro H. rewrite feeds_inside_app. cbn [feeds_inside fst]. assert (Nat.ltb i j = true) as -> by (apply Nat.ltb_lt; lia). lia.
Qed.
Lemma inner_single inp s : single_line inp s -> inner_feeds inp s = 0.
Proof. intro H. unfold inner_feeds. now rewrite (no_feeds _ H). Qed.

Lemma lines_next_inner inp i e : i <= e -> e <= length inp -> ends_line inp e ->
  lines_before inp (S e) = S (lines_before inp i + inner_feeds inp (i, e)).
Proof.
  intros H1 H2 H3. unfold lines_before. pose proof (feeds_split inp i e H1) as Hf. unfold inner_feeds, at_range. cbn [fst snd].
  destruct (Nat.eq_dec e (length inp)) as [->|Hne].
  - replace (line_feeds_before inp (S (length inp))) with (line_feeds_before inp (length inp))
      by (unfold line_feeds_before; now rewrite !firstn_all2 by lia). lia.
  - destruct H3 as [->|H3]; [lia|]. rewrite (feeds_split inp e (S e)) by lia. rewrite (slice_one _ _ _ H3).
    change (filter (fun c => N.eqb c nl) [nl]) with [nl]. cbn [length]. lia.
Qed.

(** the number of a line and the feeds inside the instructions before make up the feeds before it *)
Definition count_ok (inp : text) (own : list (nat * nat)) (x : num) : Prop :=
  fst x + feeds_inside inp own (fst (snd x)) = line_feeds_before inp (fst (snd x)).
Record CInv (inp : text) (st : ast) : Prop := {
  ci_line : a_line st + feeds_inside inp (own_lines (a_heap st)) (a_index st) = lines_before inp (a_index st);
  ci_own : forall s, In s (own_lines (a_heap st)) -> fst s < a_index st /\ fst s < length inp;
  ci_nums : Forall (count_ok inp (own_lines (a_heap st))) (all_nums st) }.

Lemma tiles_count inp own i ls j line :
  tiles inp i (map leaf_line ls) j ->
  Forall (fun lf => single_line inp (leaf_line lf)) ls ->
  (forall k lf, nth_error ls k = Some lf -> l_line lf = line + k) ->
  (forall s, In s own -> fst s < i) ->
  line + feeds_inside inp own i = lines_before inp i ->
  Forall (count_ok inp own) (map leaf_num ls) /\ line + length ls + feeds_inside inp own j = lines_before inp j.
Proof.
  revert i line. induction ls as [|lf ls IH]; intros i line Ht Hs Hn Ho Hl; cbn [map] in *.
  - inversion Ht; subst. split; [constructor|cbn; lia].
  - inversion_clear Hs as [|? ? Hs1 Hs2]. unfold count_ok, leaf_num at 1.
    destruct (leaf_line lf) as [b e] eqn:El.
    inversion Ht as [|? ? ? ? Hbe Hel Hen Htl]; subst.
    pose proof (lines_next_inner inp b e Hbe Hel Hen) as Hnx. rewrite (inner_single _ _ Hs1) in Hnx.
    destruct (IH (S e) (S line)) as [I1 I2]; auto.
    + intros k x Hk. specialize (Hn (S k) x Hk). lia.
    + intros s Hin. apply Ho in Hin. lia.
    + rewrite (feeds_inside_all inp own b (S e)); [lia|assumption|lia].
    + split.
      * constructor; [|assumption]. cbn [fst snd]. specialize (Hn 0 lf eq_refl).
        rewrite lines_before_in in Hl by lia. lia.
      * cbn [length]. lia.
Qed.

Lemma count_late inp own i e l : (forall x, In x l -> fst (snd x) < i) ->
  Forall (count_ok inp own) l -> Forall (count_ok inp (own ++ [(i, e)])) l.
Proof.
  intros H. rewrite !Forall_forall. intros Hc x Hx. unfold count_ok. rewrite feeds_inside_late; [now apply Hc|].
  apply H in Hx. lia.
Qed.
Lemma CInv_quiet inp st st' new : CInv inp st -> own_lines (a_heap st') = own_lines (a_heap st) ->
  a_line st' + feeds_inside inp (own_lines (a_heap st)) (a_index st) = lines_before inp (a_index st') ->
  a_index st <= a_index st' -> Permutation (all_nums st ++ new) (all_nums st') ->
  Forall (count_ok inp (own_lines (a_heap st))) new -> CInv inp st'.
Proof.
  intros [C1 C2 C3] Ho Hl Hi P Hn. split; rewrite ?Ho.
  - rewrite (feeds_inside_all inp _ (a_index st)); [assumption|intros s Hs; now apply C2|assumption].
  - intros s Hs. apply C2 in Hs. lia.
  - eapply Permutation_Forall; [exact P|]. apply Forall_app. now split.
Qed.

Lemma CInv_step inp st st' : AInv st -> NInv st -> CInv inp st -> a_index st < length inp -> step inp st = SOk st' -> CInv inp st'.
Proof.
  intros HI HN HC Hlt Hs.
  destruct (step_change inp st st' HI ltac:(lia) Hs) as (t & e & Hsc & Hch).
  destruct (scan_ok inp (a_index st) _ _ ltac:(lia) Hsc) as (Hie & Hle & Htok).
  pose proof (scan_single inp _ _ _ Hsc) as Hsing.
  assert (a_heap st <> []) as Hne.
  { pose proof (s_len _ (i_s _ _ _ _ _ HI)). destruct (a_heap st); [cbn in *; lia|discriminate]. }
  pose proof (proj1 (line_end_ends _ _) Hle) as [Hlen Hen].
  pose proof (lines_next_inner inp _ _ Hie Hlen Hen) as Hnx.
  assert (count_ok inp (own_lines (a_heap st)) (a_line st, (a_index st, e))) as Hone.
  { unfold count_ok. cbn [fst snd]. rewrite (ci_line _ _ HC). apply lines_before_in. lia. }
  assert (single_line inp (a_index st, e) ->
    S (a_line st) + feeds_inside inp (own_lines (a_heap st)) (a_index st) = lines_before inp (S e)) as Hq.
  { intro H. rewrite Hnx, (inner_single _ _ H), <- (ci_line _ _ HC). lia. }
  destruct Hch as [n p g e' Hcr Hp Hg Hcore Hm Hc Hix Hee|c lf Hic Hlce Hh Hm Hc Hix Hli|op v -> Hh Hm Hc Hix Hli|q -> Hh Hm Hc Hix Hli].
  - assert (own_lines (a_heap st') = own_lines (a_heap st) ++ [(a_index st, e)]) as Ho.
    { rewrite !own_lines_over, <- (created_range _ _ _ _ _ _ _ _ Hcr).
      rewrite (over_core _ own_ext _ _ Hcore). apply (over_app_upd _ own_ext); auto. }
    assert (heap_nums (a_heap st') = heap_nums (a_heap st) ++ node_nums n) as Hl.
    { transitivity (over node_nums (app_upd (a_heap st) n p g)).
      - apply over_core; [apply node_nums_ext|assumption].
      - apply over_app_upd; auto. apply node_nums_ext. }
    destruct (created_tail _ _ _ _ _ _ _ _ Hcr Hle Htok) as (C1 & C2 & C3 & C4).
    destruct HC as [D1 D2 D3].
    assert (forall s, In s (own_lines (a_heap st')) -> fst s < S e /\ fst s < length inp) as Hown.
    { intros s Hin. rewrite Ho in Hin. apply in_app_iff in Hin as [Hin|[<-|[]]]; [apply D2 in Hin; lia|cbn; lia]. }
    destruct (tiles_count inp (own_lines (a_heap st')) _ _ _ _ C1 C4 C2) as [N1 N2].
    { intros s Hin. now apply Hown in Hin. }
    { rewrite Ho, feeds_inside_early by lia. rewrite (feeds_inside_all inp _ (a_index st)); [|intros s Hin; now apply D2|lia]. lia. }
    split.
    + rewrite Hix. lia.
    + intros s Hin. apply Hown in Hin. rewrite Hix. lia.
    + apply (Permutation_Forall (x := all_nums st ++ (a_line st, (a_index st, e)) :: map leaf_num (tail_leaves n))).
      * unfold all_nums. rewrite Hl, Hm, Hc, node_nums_eq, (created_comments _ _ _ _ _ _ _ _ Hcr), (created_range _ _ _ _ _ _ _ _ Hcr), (created_line _ _ _ _ _ _ _ _ Hcr). cbn [olist map].
        rewrite app_nil_r, <- !app_assoc. apply Permutation_app_head. rewrite Permutation_app_comm, <- !app_assoc. apply Permutation_refl.
      * rewrite Ho in *. apply Forall_app. split; [apply count_late; [|assumption]; intros x Hx; now apply (ni_under _ HN) in Hx|].
        constructor; [|assumption]. unfold count_ok in *. cbn [fst snd] in *. now rewrite feeds_inside_late.
  - destruct (leaf_line_cont _ _ _ _ _ Hic) as [Hll Hll'].
    assert (single_line inp (a_index st, e)) as Hsg by (destruct Hic; exact Hsing).
    pose proof (i_lce _ _ _ _ _ HI) as Hk. rewrite Hlce in Hk. destruct Hk as [Hk1 Hk2].
    assert (heap_nums (a_heap st') = heap_nums (a_heap st) ++ [(a_line st, (a_index st, e))]) as Hl.
    { rewrite Hh.
      pose proof (d_type _ (i_d _ _ _ _ _ HI) c ltac:(lia)) as Hty.
      destruct (continuable_no_lines _ Hty Hk2) as [N1 N2].
      rewrite <- Hll, <- Hll'. apply (over_last node_nums); [assumption| |now apply cont_nums].
      destruct c; [|lia]. exfalso. unfold continuable in Hk2.
      pose proof (s_doc _ (i_s _ _ _ _ _ HI)) as Hd. unfold ncls in Hd.
      destruct (n_type (hget (a_heap st) 0)); try discriminate; contradiction. }
    assert (own_lines (a_heap st') = own_lines (a_heap st)) as Ho.
    { rewrite Hh. unfold hupd, own_lines. destruct c; [now rewrite tl_upd0|]. rewrite tl_upd.
      generalize (tl (a_heap st)) as l. intro l. revert c Hlce Hh Hk1 Hk2. clear. intros c _ _ _ _. revert c.
      induction l as [|x l IH]; intros [|c]; cbn [upd map]; try reflexivity.
      - f_equal. now rewrite (stat_ranges _ _ (benign_cont lf x)).
      - now rewrite IH. }
    apply (CInv_quiet inp st st' [(a_line st, (a_index st, e))] HC Ho); [rewrite Hix, Hli; now apply Hq|lia| |now constructor].
    unfold all_nums. rewrite Hl, Hm, Hc, flush_eq, map_app. cbn [olist map]. rewrite app_nil_r, <- !app_assoc. apply Permutation_app_head.
    rewrite (Permutation_app_comm [_]). rewrite <- app_assoc. apply Permutation_refl.
  - apply (CInv_quiet inp st st' [(a_line st, (a_index st, e))] HC); [now rewrite Hh|rewrite Hix, Hli; now apply Hq|lia| |now constructor].
    unfold all_nums. rewrite Hh, Hm, Hc. cbn [olist]. rewrite map_app, <- !app_assoc. apply Permutation_refl.
  - apply (CInv_quiet inp st st' [] HC); [now rewrite Hh|rewrite Hix, Hli; now apply Hq|lia| |now constructor].
    unfold all_nums. rewrite Hh, Hm, Hc, flush_eq, map_app. cbn [olist map]. rewrite !app_nil_r. apply Permutation_refl.
Qed.
Theorem reach_count inp st : reach inp st -> CInv inp st.
Proof.
  induction 1 as [|st st' Hr IH Hlt Hs].
  - split; cbn; [reflexivity|intros s []|constructor].
  - apply (CInv_step inp st); auto; [now apply reach_inv in Hr|now apply reach_nums in Hr].
Qed.

(** behind the end of the text: the text does not end with a line feed *)
Lemma reach_end inp st : reach inp st -> length inp < a_index st -> last inp 0%N <> nl.
Proof.
  intros Hr. destruct Hr as [|st st' Hr Hlt Hs]; [cbn; lia|]. intros Hix' Hl.
  destruct (reach_inv _ _ Hr) as [HI _].
  destruct (step_change inp st st' HI ltac:(lia) Hs) as (t & e & Hsc & Hch).
  destruct (scan_ok inp (a_index st) _ _ ltac:(lia) Hsc) as (Hie & Hle & Htok).
  pose proof (proj1 (line_end_ends _ _) Hle) as [Hlen Hen].
  assert (shut inp (length inp) -> False) as Hfin.
  { intro H. apply H. clear - Hl Hlt. assert (inp <> []) as Hne by (destruct inp; [cbn in Hlt; lia|discriminate]).
    assert (exists a, inp = a ++ [nl]) as (a & ->) by (exists (removelast inp); rewrite <- Hl; now apply app_removelast_last).
    rewrite app_length. cbn [length]. rewrite Nat.add_1_r. cbn [pred]. now rewrite nth_error_app2, Nat.sub_diag by lia. }
  assert (a_index st' = S e -> False) as He.
  { intro H. apply Hfin. replace (length inp) with e by lia. apply (scan_shut inp (a_index st) t); [lia|lia|assumption]. }
  destruct Hch as [n p g e' Hcr Hp Hg Hcore Hm Hc Hix Hee|c lf Hic Hlce Hh Hm Hc Hix Hli|op v -> Hh Hm Hc Hix Hli|q -> Hh Hm Hc Hix Hli]; auto.
  destruct (created_tail _ _ _ _ _ _ _ _ Hcr Hle Htok) as (C1 & _ & _ & C4).
  inversion Hcr; subst; auto.
  match goal with H : find_closing _ _ _ _ = _ |- _ => rename H into HF end.
  match goal with H : ml_part _ _ _ _ = _ |- _ => rename H into HM end.
  destruct (closing_bounds _ _ _ _ _ _ _ _ Hlen HF) as (B1 & B2 & B3 & B4 & B5).
  destruct (ml_part_spec _ _ _ _ _ _ _ HM B1 B4 B5 Hle) as (-> & _).
  apply line_end_ends in B3 as [B3 B3'].
  apply (find_closing_ok inp) in HF; [|split; [reflexivity|assumption]]. destruct HF as (_ & _ & HF).
  apply (closing_line_ok inp) in HF; [|split; [reflexivity|lia]].
  destruct HF as (K1 & K2 & K3 & K4 & K5 & K6 & K7 & K8 & K9).
  assert (0 < length (sub inp op)) as Hop.
  { destruct Htok as ([Hs1 Hs2] & _). rewrite Hs2, repeat_length. unfold width, span_in in *. lia. }
  apply Hfin. replace (length inp) with e' by lia. apply (shut_range inp (S stop)); [lia|].
  rewrite Forall_forall in C4. apply (C4 (end_leaf line3 (S stop) e' o2 k2)). cbn.
  apply in_or_app. right. now left.
Qed.

Theorem numbers_accounted : forall inp st lc, analyze inp = AOk st lc ->
  (forall n s, In (n, s) (heap_nums (a_heap st) ++ map leaf_num (a_meta st)) ->
     n + swallowed inp (a_heap st) (fst s) = line_feeds_before inp (fst s)) /\
  lc + swallowed inp (a_heap st) (length inp) = S (line_feeds_before inp (length inp)).
Proof.
  intros inp st lc Ha. destruct (final_reach _ _ _ Ha) as (st0 & Hr & Hlen & Eh & Em & _ & _ & Hlc). rewrite Eh, Em.
  destruct (reach_count _ _ Hr) as [C1 C2 C3]. change (swallowed inp (a_heap st0)) with (feeds_inside inp (own_lines (a_heap st0))).
  split.
  - intros n s Hin. rewrite flush_eq, map_app in Hin. rewrite Forall_forall in C3. exact (C3 (n, s) Hin).
  - pose proof (reach_end _ _ Hr) as Hlast. unfold lines_before in C1.
    assert (line_feeds_before inp (a_index st0) = line_feeds_before inp (length inp)) as E.
    { unfold line_feeds_before. now rewrite !firstn_all2 by lia. }
    rewrite E in C1. rewrite (feeds_inside_all inp _ (length inp) (a_index st0)) in C1; [|intros s Hs; now apply C2|assumption].
    subst lc. destruct (N.eqb_spec (last inp 0%N) nl) as [Hl|Hl].
    + destruct (Nat.eq_dec (a_index st0) (length inp)) as [E0|]; [lia|]. exfalso. apply Hlast; [lia|assumption].
    + destruct inp as [|c inp'] eqn:Einp.
      { assert (own_lines (a_heap st0) = []) as ->; [|reflexivity]. destruct (own_lines (a_heap st0)) as [|s l]; [reflexivity|].
        destruct (C2 s (or_introl eq_refl)) as [_ H]. cbn in H. lia. }
      rewrite <- Einp in *.
      destruct (Nat.eq_dec (a_index st0) (length inp)) as [Heq|].
      2:{ destruct (reach_inv _ _ Hr) as [_ Hb]. lia. }
      exfalso. apply Hl. destruct (reach_text _ _ Hr) as [T1 _ _ _]. specialize (T1 ltac:(lia)). rewrite Heq in T1.
      destruct T1 as [T1|T1]; [apply length_zero_iff_nil in T1; congruence|].
      rewrite Einp in T1 |- *. clear - T1.
      assert (c :: inp' <> []) as Hn by discriminate.
      pose proof (app_removelast_last 0%N Hn) as E. set (d := last (c :: inp') 0%N) in *. rewrite E in T1.
      rewrite app_length in T1. cbn [length] in T1. rewrite Nat.add_sub in T1.
      rewrite nth_error_app2, Nat.sub_diag in T1 by lia. cbn [nth_error] in T1. congruence.
Qed.

(** * When the numbers are right *)
Lemma filter_zero t : length (filter (fun c => N.eqb c nl) t) = 0 -> ~ In nl t.
Proof.
  induction t as [|c t IH]; cbn [filter]; [intros _ []|]. destruct (N.eqb_spec c nl) as [->|Hc]; [discriminate|].
  intros H [E|Hin]; [congruence|]. now apply IH in H.
Qed.
Lemma none_inside inp l i : feeds_inside inp l i = 0 <-> forall s, In s l -> fst s < i -> single_line inp s.
Proof.
  induction l as [|s l [IH1 IH2]]; cbn [feeds_inside]; [split; [intros _ s []|reflexivity]|]. split.
  - intros H s' [<-|Hin] Hlt.
    + apply Nat.ltb_lt in Hlt. rewrite Hlt in H. apply filter_zero. unfold inner_feeds in H. lia.
    + apply IH1; [lia|assumption|assumption].
  - intro H. rewrite IH2 by (intros s' Hs'; apply H; now right). destruct (Nat.ltb_spec (fst s) i) as [Hlt|]; [|reflexivity].
    now rewrite (inner_single inp s) by (apply H; [now left|assumption]).
Qed.
Theorem numbers_right_when : forall inp st lc, analyze inp = AOk st lc ->
  (forall n s, In (n, s) (heap_nums (a_heap st) ++ map leaf_num (a_meta st)) ->
     (n = line_feeds_before inp (fst s) <->
      forall m, In m (tl (a_heap st)) -> fst (line_range (n_ranges m)) < fst s -> single_line inp (line_range (n_ranges m)))) /\
  (lc = S (line_feeds_before inp (length inp)) <->
   forall m, In m (tl (a_heap st)) -> single_line inp (line_range (n_ranges m))).
Proof.
  intros inp st lc Ha. destruct (numbers_accounted inp st lc Ha) as [H1 H2].
  assert (forall i, swallowed inp (a_heap st) i = 0 <->
    forall m, In m (tl (a_heap st)) -> fst (line_range (n_ranges m)) < i -> single_line inp (line_range (n_ranges m))) as Hz.
  { intro i. unfold swallowed, instruction_ranges. rewrite none_inside. split.
    - intros H m Hm. apply H. exact (in_map (fun n => line_range (n_ranges n)) _ _ Hm).
    - intros H s Hs. apply in_map_iff in Hs as (m & <- & Hm). now apply H. }
  split.
  - intros n s Hin. specialize (H1 n s Hin). rewrite <- Hz. lia.
  - assert (swallowed inp (a_heap st) (length inp) = 0 <-> lc = S (line_feeds_before inp (length inp))) as <- by lia.
    rewrite Hz. destruct (final_reach _ _ _ Ha) as (st0 & Hr & _ & Eh & _).
    destruct (reach_count _ _ Hr) as [_ C2 _]. split; intros H m Hm; [|intros _; now apply H].
    apply H; [assumption|]. apply (C2 (line_range (n_ranges m))). rewrite <- Eh. exact (in_map (fun n => line_range (n_ranges n)) _ _ Hm).
Qed.
