(** CrlfProofs: texts with carriage returns before the line feeds (C59). *)
From Verif Require Import Base Regex Grammar Types Analyzer AnalyzerLoop SaidLoop Scan TokenStep ScanProofs ScanFacts SpecText AnalyzerLines SpecSaid SpecBroken SpecEndings CrlfScan.

Section Text.
  Context (inp : text).
  Local Notation inp' := (crlf inp).
  Local Notation phi := (phi inp).
  Local Notation phe := (phe inp).

  Lemma phi_end : phi (length inp) = length inp'.
  Proof. unfold CrlfScan.phi. now rewrite firstn_all. Qed.
  Lemma phi_inner i : i < length inp -> phi i < length inp'.
  Proof.
    intro H. assert (at_pos inp i (skipn i inp)) as Hp by (split; [reflexivity|lia]). apply pos_crlf in Hp. apply at_pos_len in Hp.
    rewrite Hp. destruct (skipn i inp) as [|c r] eqn:E; [apply (f_equal (@length _)) in E; rewrite skipn_length in E; cbn in E; lia|].
    cbn [crlf]. destruct (N.eqb c nl); cbn [length]; lia.
  Qed.
  Lemma next_line e : line_end inp e -> (S e <= length inp -> S (phe e) = phi (S e)) /\ (length inp < S e -> length inp' <= S (phe e)).
  Proof.
    intros [Hl He]. assert (at_pos inp e (skipn e inp)) as Hp by (split; auto). split; intro H.
    - destruct He as [He|(r & He)]; [apply (f_equal (@length _)) in He; rewrite skipn_length in He; cbn in He; lia|]. rewrite He in Hp.
      rewrite (phi_nl _ _ _ Hp), (phe_at _ _ _ Hp eq_refl). cbn [bump]. change (N.eqb nl nl) with true. cbv iota. lia.
    - assert (e = length inp) as -> by lia. unfold CrlfScan.phe. rewrite phi_end. lia.
  Qed.

  Definition at_both (i j : nat) : Prop := (i <= length inp -> j = phi i) /\ (length inp < i -> length inp' <= j).

  Lemma block_text op k i e : tok_ok inp i e (TMultiline op k) -> e <= length inp ->
    let t := at_range inp op in let t' := at_range inp k in
    (t <> [] /\ forallb not_nl t = true /\ last t nl <> cr) /\ (t' <> [] /\ forallb not_nl t' = true /\ last t' nl <> cr) /\
    at_range inp' (smap inp op) = t /\ at_range inp' (smap inp k) = t'.
  Proof.
    intros (O & W & V) He. cbv zeta. destruct (op_width inp _ _ _ _ O He ltac:(discriminate)) as [_ E1]. rewrite E1, (span_crlf inp _ _ _ V He).
    destruct O as ((O1 & O2 & O3) & O4). destruct V as ((V1 & V2 & V3) & N1 & N2 & N3 & N4). unfold sub in *. fold (at_range inp op) in O4. fold (at_range inp k) in *.
    assert (at_range inp op <> []) as Hne by (rewrite O4; destruct (snd op - fst op) eqn:E; [lia|discriminate]).
    split; [split; [assumption|]; split|].
    - rewrite O4. apply not_nl_in. intro K. apply repeat_spec in K. discriminate.
    - pose proof (last_in _ nl Hne) as K. rewrite O4 in K at 2. apply repeat_spec in K. rewrite K. discriminate.
    - split; [|split; reflexivity]. split; [assumption|]. split; [now apply not_nl_in|]. intro K. pose proof (eq_trans (f_equal is_space (eq_sym K)) N3) as Q. discriminate Q.
  Qed.

  Lemma block_value e stop : e <= stop -> stop < length inp -> nth_error inp stop = Some nl -> line_end inp e ->
    (if Nat.eqb (phe stop) (phe e) then None else Some (slice inp' (S (phe e)) (phe stop))) =
    (if Nat.eqb stop e then None else Some (crlf (slice inp (S e) stop) ++ [cr])).
  Proof.
    intros H1 H2 H3 He. destruct (Nat.eqb_spec stop e) as [->|Hne]; [now rewrite Nat.eqb_refl|].
    destruct (proj1 (next_line e He) ltac:(lia)) as [].
    assert (at_pos inp stop (nl :: skipn (S stop) inp)) as Hp.
    { split; [|lia]. clear - H3. revert stop H3. induction inp as [|c t IH]; intros [|s] H; try discriminate; [now injection H as ->|]. cbn [skipn]. now apply IH. }
    assert (phe stop = phi stop + 1) as Ep by (rewrite (phe_at _ _ _ Hp eq_refl); reflexivity).
    pose proof (next_line e He) as [En _]. specialize (En ltac:(lia)).
    assert (phi (S e) <= phi stop) as Hle.
    { destruct (slice_pos inp (S e) stop ltac:(lia) ltac:(lia)) as [Hs Hl]. pose proof (phi_app _ _ _ _ Hs) as P. rewrite Hl in P. replace (S e + (stop - S e)) with stop in P by lia. lia. }
    destruct (Nat.eqb_spec (phe stop) (phe e)) as [Eq|_]; [lia|]. f_equal. rewrite En, Ep.
    rewrite <- slice_crlf by lia. apply pos_crlf in Hp. change (crlf (nl :: skipn (S stop) inp)) with ([cr] ++ nl :: crlf (skipn (S stop) inp)) in Hp.
    destruct Hp as [Hp Hl]. unfold slice. replace (phi stop + 1 - phi (S e)) with ((phi stop - phi (S e)) + 1) by lia.
    rewrite firstn_add, <- skipn_plus. replace (phi (S e) + (phi stop - phi (S e))) with (phi stop) by lia. rewrite Hp. reflexivity.
  Qed.

  Lemma block_find op k i e : tok_ok inp i e (TMultiline op k) -> line_end inp e ->
    find_closing (at_range inp' (smap inp op)) (at_range inp' (smap inp k)) (phe e) (skipn (phe e) inp') =
    option_map (fcmap inp) (find_closing (at_range inp op) (at_range inp k) e (skipn e inp)).
  Proof.
    intros Htok Hle. destruct (block_text _ _ _ _ Htok (proj1 Hle)) as ((O1 & O2 & O3) & (K1 & K2 & K3) & E1 & E2).
    assert (at_pos inp e (skipn e inp)) as He by (split; [reflexivity|apply Hle]). rewrite E1, E2, <- (find_crlf inp _ _ _ _ O1 O2 O3 K1 K2 K3 He).
    destruct Hle as [_ [Hq|(r & Hq)]]; rewrite Hq in He |- *.
    - rewrite (phe_at _ _ _ He I). cbn [bump]. rewrite Nat.add_0_r. apply pos_crlf in He as [-> _]. reflexivity.
    - rewrite (phe_at _ _ _ He eq_refl). apply pos_crlf in He as [He _]. change (bump (nl :: r)) with 1.
      change (crlf (nl :: r)) with (cr :: nl :: crlf r) in *. rewrite skipn_plus, He. cbn [skipn]. cbn [find_closing]. change (N.eqb cr nl) with false. cbv iota. now rewrite Nat.add_1_r.
  Qed.

  Lemma says_crlf i l : says inp i l -> forall j, at_both i j -> says inp' j (map with_returns l).
  Proof.
    induction 1 as [i Hi|i t e x l Hi Hsc Hm Hn IH|i op k e stop o2 k2 e2 l Hi Hsc Hf Hn IH]; intros j [J1 J2].
    - apply sy_end. destruct (Nat.eq_dec i (length inp)) as [->|]; [rewrite J1, phi_end by lia; lia|apply J2; lia].
    - rewrite (J1 ltac:(lia)). assert (at_pos inp i (skipn i inp)) as Hp by (split; [reflexivity|lia]). pose proof (pos_crlf _ _ _ Hp) as [Hp' _].
      destruct (scan_ok inp i _ _ ltac:(lia) Hsc) as (Hie & Hle & Htok). pose proof (scan_crlf inp i _ Hp) as Hs. rewrite Hsc in Hs. cbn in Hs. unfold scmap in Hs. cbn [fst snd] in Hs.
      cbn [map]. apply (sy_line _ _ (tmap inp t) (phe e)).
      + now apply phi_inner.
      + now rewrite Hp'.
      + rewrite (meaning_crlf inp i e t Htok (proj1 Hle)); [| |assumption].
        * rewrite Hm. f_equal. destruct t; cbn in Hm; try discriminate; injection Hm as <-; reflexivity.
        * pose proof (scan_single inp _ _ _ Hsc) as Hg. destruct t; auto.
      + apply IH. exact (next_line e Hle).
    - rewrite (J1 ltac:(lia)). assert (at_pos inp i (skipn i inp)) as Hp by (split; [reflexivity|lia]). pose proof (pos_crlf _ _ _ Hp) as [Hp' _].
      destruct (scan_ok inp i _ _ ltac:(lia) Hsc) as (Hie & Hle & Htok). pose proof (scan_crlf inp i _ Hp) as Hs. rewrite Hsc in Hs. cbn in Hs. unfold scmap in Hs. cbn [fst snd tmap] in Hs.
      destruct (block_text _ _ _ _ Htok (proj1 Hle)) as ((O1 & O2 & O3) & (K1 & K2 & K3) & E1 & E2).
      destruct (closing_bounds _ _ _ _ _ _ _ _ (proj1 Hle) Hf) as (B1 & B2 & B3 & B4 & B5).
      assert (at_pos inp e (skipn e inp)) as He by (split; [reflexivity|apply Hle]).
      pose proof (block_find _ _ _ _ Htok Hle) as Hf'. rewrite Hf in Hf'. cbn in Hf'. unfold fcmap in Hf'. cbn [fst snd clmap] in Hf'.
      pose proof (sy_multiline inp' (phi i) (smap inp op) (smap inp k) (phe e) (phe stop) (smap inp o2) (smap inp k2) (phe e2) (map with_returns l)) as M.
      rewrite (block_value e stop B1 B4 B5 Hle), E2 in M. cbn [map with_returns].
      replace (match (if Nat.eqb stop e then None else Some (slice inp (S e) stop)) with Some v => SaysMultiline (at_range inp k) (Some (crlf v ++ [cr])) | None => SaysMultiline (at_range inp k) (if Nat.eqb stop e then None else Some (slice inp (S e) stop)) end)
        with (SaysMultiline (at_range inp k) (if Nat.eqb stop e then None else Some (crlf (slice inp (S e) stop) ++ [cr]))) by (destruct (Nat.eqb stop e); reflexivity).
      apply M; [now apply phi_inner|now rewrite Hp'|rewrite <- E2; exact Hf'|apply IH; exact (next_line e2 B3)].
  Qed.

  Lemma says_back j l' : says inp' j l' -> forall i, at_both i j -> exists l, says inp i l /\ l' = map with_returns l.
  Proof.
    induction 1 as [j Hj|j t' e' x l Hj Hsc Hm Hn IH|j op' k' e' stop' o2' k2' e2' l Hj Hsc Hf Hn IH]; intros i [J1 J2].
    - exists []. split; [|reflexivity]. apply sy_end. destruct (Nat.le_gt_cases (length inp) i) as [|Hi]; [assumption|]. rewrite (J1 ltac:(lia)) in Hj. pose proof (phi_inner i Hi). lia.
    - assert (i < length inp) as Hi.
      { destruct (Nat.lt_trichotomy i (length inp)) as [|[->|Hi]]; [assumption| |specialize (J2 Hi); lia]. rewrite (J1 ltac:(lia)), phi_end in Hj. lia. }
      rewrite (J1 ltac:(lia)) in *. assert (at_pos inp i (skipn i inp)) as Hp by (split; [reflexivity|lia]). pose proof (pos_crlf _ _ _ Hp) as [Hp' _].
      rewrite Hp', (scan_crlf inp i _ Hp) in Hsc. destruct (scan i (skipn i inp)) as [[t e]|] eqn:E; [|discriminate]. cbn in Hsc. unfold scmap in Hsc. cbn [fst snd] in Hsc. injection Hsc as <- <-.
      destruct (scan_ok inp i _ _ ltac:(lia) E) as (Hie & Hle & Htok).
      rewrite (meaning_crlf inp i e t Htok (proj1 Hle)) in Hm; [|pose proof (scan_single inp _ _ _ E) as Hg; destruct t; auto|assumption].
      destruct (IH (S e) (next_line e Hle)) as (l1 & H1 & ->). exists (x :: l1). split; [eapply sy_line; eassumption|]. cbn [map]. f_equal.
      destruct t; cbn in Hm; try discriminate; injection Hm as <-; reflexivity.
    - assert (i < length inp) as Hi.
      { destruct (Nat.lt_trichotomy i (length inp)) as [|[->|Hi]]; [assumption| |specialize (J2 Hi); lia]. rewrite (J1 ltac:(lia)), phi_end in Hj. lia. }
      rewrite (J1 ltac:(lia)) in *. assert (at_pos inp i (skipn i inp)) as Hp by (split; [reflexivity|lia]). pose proof (pos_crlf _ _ _ Hp) as [Hp' _].
      rewrite Hp', (scan_crlf inp i _ Hp) in Hsc. destruct (scan i (skipn i inp)) as [[t e]|] eqn:E; [|discriminate]. cbn in Hsc. unfold scmap in Hsc. cbn [fst snd] in Hsc.
      destruct t as [| | | | |op k| | | |]; cbn [tmap] in Hsc; try discriminate. injection Hsc as <- <- <-.
      destruct (scan_ok inp i _ _ ltac:(lia) E) as (Hie & Hle & Htok). destruct (block_text _ _ _ _ Htok (proj1 Hle)) as ((O1 & O2 & O3) & (K1 & K2 & K3) & E1 & E2).
      rewrite (block_find _ _ _ _ Htok Hle) in Hf. destruct (find_closing (at_range inp op) (at_range inp k) e (skipn e inp)) as [[stop [[o2 k2] e2]]|] eqn:F; [|discriminate].
      cbn in Hf. unfold fcmap in Hf. cbn [fst snd clmap] in Hf. injection Hf as <- <- <- <-.
      destruct (closing_bounds _ _ _ _ _ _ _ _ (proj1 Hle) F) as (B1 & B2 & B3 & B4 & B5).
      destruct (IH (S e2) (next_line e2 B3)) as (l1 & H1 & ->). eexists (_ :: l1). split; [eapply sy_multiline; eassumption|]. cbn [map]. f_equal.
      rewrite (block_value e stop B1 B4 B5 Hle), E2. cbn [with_returns]. now destruct (Nat.eqb stop e).
  Qed.

  Lemma breaks_crlf i l b : breaks inp i l b -> forall j, at_both i j -> breaks inp' j (map with_returns l) b.
  Proof.
    induction 1 as [i Hi Hsc|i op k e Hi Hsc Hf|i t e x l b Hi Hsc Hm Hn IH|i op k e stop o2 k2 e2 l b Hi Hsc Hf Hn IH]; intros j [J1 J2]; rewrite (J1 ltac:(lia));
      assert (at_pos inp i (skipn i inp)) as Hp by (split; [reflexivity|lia]); pose proof (pos_crlf _ _ _ Hp) as [Hp' _]; pose proof (scan_crlf inp i _ Hp) as Hs; rewrite Hsc in Hs; cbn in Hs; unfold scmap in Hs; cbn [fst snd] in Hs.
    - apply bk_line; [now apply phi_inner|now rewrite Hp'].
    - destruct (scan_ok inp i _ _ ltac:(lia) Hsc) as (Hie & Hle & Htok). apply (bk_open _ _ (smap inp op) (smap inp k) (phe e)); [now apply phi_inner|now rewrite Hp'|].
      rewrite (block_find _ _ _ _ Htok Hle), Hf. reflexivity.
    - destruct (scan_ok inp i _ _ ltac:(lia) Hsc) as (Hie & Hle & Htok). cbn [map]. apply (bk_after _ _ (tmap inp t) (phe e)).
      + now apply phi_inner.
      + now rewrite Hp'.
      + rewrite (meaning_crlf inp i e t Htok (proj1 Hle)); [| |assumption].
        * rewrite Hm. f_equal. destruct t; cbn in Hm; try discriminate; injection Hm as <-; reflexivity.
        * pose proof (scan_single inp _ _ _ Hsc) as Hg. destruct t; auto.
      + apply IH. exact (next_line e Hle).
    - destruct (scan_ok inp i _ _ ltac:(lia) Hsc) as (Hie & Hle & Htok). cbn [tmap] in Hs.
      destruct (block_text _ _ _ _ Htok (proj1 Hle)) as ((O1 & O2 & O3) & (K1 & K2 & K3) & E1 & E2).
      destruct (closing_bounds _ _ _ _ _ _ _ _ (proj1 Hle) Hf) as (B1 & B2 & B3 & B4 & B5).
      pose proof (block_find _ _ _ _ Htok Hle) as Hf'. rewrite Hf in Hf'. cbn in Hf'. unfold fcmap in Hf'. cbn [fst snd clmap] in Hf'.
      pose proof (bk_multiline inp' (phi i) (smap inp op) (smap inp k) (phe e) (phe stop) (smap inp o2) (smap inp k2) (phe e2) (map with_returns l) b) as M.
      rewrite (block_value e stop B1 B4 B5 Hle), E2 in M. cbn [map with_returns].
      replace (match (if Nat.eqb stop e then None else Some (slice inp (S e) stop)) with Some v => SaysMultiline (at_range inp k) (Some (crlf v ++ [cr])) | None => SaysMultiline (at_range inp k) (if Nat.eqb stop e then None else Some (slice inp (S e) stop)) end)
        with (SaysMultiline (at_range inp k) (if Nat.eqb stop e then None else Some (crlf (slice inp (S e) stop) ++ [cr]))) by (destruct (Nat.eqb stop e); reflexivity).
      apply M; [now apply phi_inner|now rewrite Hp'|rewrite <- E2; exact Hf'|apply IH; exact (next_line e2 B3)].
  Qed.
End Text.

Lemma tells_crlf t L' : tells (crlf t) L' <-> exists L, tells t L /\ L' = map (fun cx => (fst cx, with_returns (snd cx))) L.
Proof.
  assert (forall l p, noted p (map with_returns l) = map (fun cx => (fst cx, with_returns (snd cx))) (noted p l)) as N.
  { induction l as [|x l IH]; intro p; [reflexivity|]. destruct x as [| | | | | |k [v|]| |]; cbn [map noted with_returns fst snd]; now rewrite ?IH. }
  assert (at_both t 0 0) as B by (split; [intros _; reflexivity|lia]). split.
  - intros (l' & H & ->). destruct (says_back t 0 l' H 0 B) as (l & Hl & ->). exists (noted [] l). split; [now exists l|apply N].
  - intros (L & (l & H & ->) & ->). exists (map with_returns l). split; [now apply (says_crlf t 0 l H)|symmetry; apply N].
Qed.
