(** WrittenProofs: what is written is said (lemmas for C57). *)
From Verif Require Import Base Regex Grammar Scan ScanProofs Types TokenStep ScanFacts SpecText SpecRead SpecCanon CanonScan SpecSaid SpecWritten WrittenScan.

Lemma wide_ends s d r char_ok : wide s -> char_ok nl = false -> char_ok d = false -> key_ends char_ok (s ++ d :: r).
Proof.
  intros Hs Hnl Hd. induction s as [|c s IH]; [exists [], (d :: r); split; [reflexivity|split; [reflexivity|exact Hd]]|]. unfold wide in Hs. cbn [forallb] in Hs. apply andb_true_iff in Hs as [Hc Hs]. rewrite is_space_split in Hc.
  destruct (hspace c) eqn:E.
  - destruct (IH Hs) as (g & R' & E' & Hg & HR). exists (c :: g), R'. cbn [app]. rewrite E'. split; [reflexivity|]. split; [|assumption]. unfold gap. cbn [forallb]. now rewrite E.
  - cbn in Hc. apply N.eqb_eq in Hc as ->. exists [], (nl :: s ++ d :: r). split; [reflexivity|split; [reflexivity|exact Hnl]].
Qed.
Lemma gap_ends z R char_ok : gap z -> ends R -> char_ok nl = false -> key_ends char_ok (z ++ R).
Proof. intros Hz HR Hnl. exists z, R. split; [reflexivity|]. split; [assumption|]. destruct HR as [->|(r & ->)]; auto. Qed.

Lemma late_tick j r : late_tail j (c_tick :: r) = None. Proof. reflexivity. Qed.
Lemma section_tick j r : section_tail j (c_tick :: r) = None. Proof. reflexivity. Qed.

Ltac outs H := unfold none_of in H; cbn in H.
Lemma not_among c cs w : none_of cs w -> In c cs -> forall x, In x w -> N.eqb x c = false.
Proof. intros H Hc x Hx. apply N.eqb_neq. intros ->. exact (H c Hc Hx). Qed.

Definition head_ok (kt : text) : Prop := exists c w, kt = c :: w /\ is_space c = false /\ ~ In c (U "|\>-#").
Lemma element_head kt k : element_key kt k -> head_ok kt.
Proof.
  intros [(-> & Ht & Hf & _)|[n a k0 z Hn _ _ _ _ _]].
  - destruct (trimmed_cons k Ht) as (c & w & -> & _ & Hs & _). exists c, w. split; [reflexivity|]. split; [assumption|]. rewrite firstn_1 in Hf. intro Hc. apply (Hf c); [|now left].
    cbn in Hc. cbn. intuition.
  - destruct n as [|n]; [lia|]. eexists c_tick, _. split; [reflexivity|]. split; [reflexivity|]. cbn. intuition discriminate.
Qed.
Lemma element_key_read {A} (tail : nat -> text -> option A) inp i kt k R x : element_key kt k -> (forall j r, tail j (c_tick :: r) = None) -> key_ends key_char R -> tail (i + length kt) R = Some x ->
  at_pos inp i (kt ++ R) -> exists ks, scan_key key_first key_char tail i (kt ++ R) = Some (ks, x) /\ at_range inp (key_at ks) = k.
Proof.
  intros [(-> & Ht & Hf & Hr)|He] Hno HR Hx HP.
  - destruct (trimmed_cons k Ht) as (c & w & E & _ & Hs & _). eexists. split.
    + apply (plain_read key_first key_char) with (c := c) (w := w); auto.
      * intros y Hy. unfold hspace in Hy. apply andb_true_iff in Hy as [Hy Hn]. unfold key_char. destruct (N.eqb_spec y nl); [discriminate|].
        unfold c_colon, c_eq, c_lt. destruct (N.eqb_spec y 58) as [->|]; [discriminate|]. destruct (N.eqb_spec y 61) as [->|]; [discriminate|]. destruct (N.eqb_spec y 60) as [->|]; [discriminate|]. reflexivity.
      * rewrite E, firstn_1 in Hf. unfold key_first, c_gt, c_hash, c_dash, c_tick, c_bslash, c_pipe, c_colon, c_eq, c_lt. rewrite Hs.
        rewrite !(fun y Hy => not_among y _ _ Hf Hy c (or_introl eq_refl)) by (cbn; intuition). reflexivity.
      * apply forallb_forall. intros y Hy. assert (In y k) as Hk by (rewrite E; now right). pose proof (trimmed_no_nl k Ht) as Hnl. rewrite forallb_forall in Hnl. specialize (Hnl y Hk). unfold not_nl in Hnl. apply negb_true_iff in Hnl.
        unfold key_char, c_colon, c_eq, c_lt. rewrite Hnl. rewrite !(fun z Hz => not_among z _ _ Hr Hz y Hk) by (cbn; intuition). reflexivity.
    + cbn [key_at]. now apply at_pos_app in HP as [_ HP].
  - destruct (escaped_read key_first key_char eq_refl tail i kt k R x He Hno Hx) as (b & e & p & E & u & v & Ek & <-). eexists. split; [exact E|]. cbn [key_at].
    rewrite Ek, <- !app_assoc in HP. exact (at_pos_sub inp i u k (v ++ R) HP).
Qed.
Lemma section_key_read inp i kt k R x : section_key kt k -> key_ends skey_char R -> section_tail (i + length kt) R = Some x ->
  at_pos inp i (kt ++ R) -> exists ks, scan_key skey_first skey_char section_tail i (kt ++ R) = Some (ks, x) /\ at_range inp (key_at ks) = k.
Proof.
  intros [(-> & Ht & Hf & Hr)|He] HR Hx HP.
  - destruct (trimmed_cons k Ht) as (c & w & E & _ & Hs & _). eexists. split.
    + apply (plain_read skey_first skey_char) with (c := c) (w := w); auto.
      * intros y Hy. unfold hspace in Hy. apply andb_true_iff in Hy as [Hy Hn]. unfold skey_char. destruct (N.eqb_spec y nl); [discriminate|].
        unfold c_lt. destruct (N.eqb_spec y 60) as [->|]; [discriminate|]. reflexivity.
      * rewrite E, firstn_1 in Hf. unfold skey_first, c_tick, c_lt. rewrite Hs.
        rewrite !(fun y Hy => not_among y _ _ Hf Hy c (or_introl eq_refl)) by (cbn; intuition). reflexivity.
      * apply forallb_forall. intros y Hy. assert (In y k) as Hk by (rewrite E; now right). pose proof (trimmed_no_nl k Ht) as Hnl. rewrite forallb_forall in Hnl. specialize (Hnl y Hk). unfold not_nl in Hnl. apply negb_true_iff in Hnl.
        unfold skey_char, c_lt. rewrite Hnl. rewrite !(fun z Hz => not_among z _ _ Hr Hz y Hk) by (cbn; intuition). reflexivity.
    + cbn [key_at]. now apply at_pos_app in HP as [_ HP].
  - destruct (escaped_read skey_first skey_char eq_refl section_tail i kt k R x He section_tick Hx) as (b & e & p & E & u & v & Ek & <-). eexists. split; [exact E|]. cbn [key_at].
    rewrite Ek, <- !app_assoc in HP. exact (at_pos_sub inp i u k (v ++ R) HP).
Qed.
Lemma section_head kt k : section_key kt k -> exists c w, kt = c :: w /\ is_space c = false.
Proof.
  intros [(-> & Ht & _)|[n a k0 z Hn _ _ _ _ _]].
  - destruct (trimmed_cons k Ht) as (c & w & -> & _ & Hs & _). eauto.
  - destruct n as [|n]; [lia|]. eexists c_tick, _. split; reflexivity.
Qed.

Lemma gap_first a c t : gap a -> hspace c = false -> spaces (a ++ c :: t) = length a /\ after_spaces (a ++ c :: t) = c :: t.
Proof. intros Ha Hc. now apply spaces_gap. Qed.
Lemma space_h c : is_space c = false -> hspace c = false /\ N.eqb c nl = false.
Proof. rewrite is_space_split. intro H. now apply orb_false_iff in H. Qed.

Lemma scan_element i a kt t : gap a -> head_ok kt -> scan i (a ++ kt ++ t) =
  match scan_key key_first key_char late_tail (i + length a) (kt ++ t) with
  | Some (k, (LField o v, e)) => Some (TField k o v, e)
  | Some (k, (LEntry o v, e)) => Some (TEntry k o v, e)
  | Some (k, (LCopy o t, e)) => Some (TCopy k o t, e)
  | None => None
  end.
Proof.
  intros Ha (c & w & -> & Hs & Hc). destruct (space_h c Hs) as [Hh Hn]. cbn [app]. unfold scan. destruct (gap_first a c (w ++ t) Ha Hh) as [-> ->]. rewrite Hn.
  assert (forall x, In x (U "|\>-#") -> N.eqb c x = false) as K by (intros x Hx; apply N.eqb_neq; intros ->; contradiction).
  unfold c_pipe, c_bslash, c_gt, c_dash, c_hash. rewrite !K by (cbn; intuition). reflexivity.
Qed.

Lemma scan_hash i a n s kt k T : gap a -> 1 <= n -> wide s -> section_key kt k -> (s = [] -> ~ starts_with (U "#") kt) -> scan i (a ++ repeat 35%N n ++ s ++ kt ++ T) =
  match scan_key skey_first skey_char section_tail (i + length a + n + length s) (kt ++ T) with
  | Some (k, (t, e)) => Some (TSection (i + length a, i + length a + n) k t, e)
  | None => None
  end.
Proof.
  intros Ha Hn Hs Hk Hx. destruct (section_head kt k Hk) as (c & w & -> & Hc).
  assert (exists d t, s ++ (c :: w) ++ T = d :: t /\ d <> 35%N) as (d & t & Ed & Hd).
  { destruct s as [|y s]; cbn [app]; eexists _, _; (split; [reflexivity|]); intros ->; [apply (Hx eq_refl); now exists w|discriminate Hs]. }
  assert (exists t', repeat 35%N n ++ s ++ (c :: w) ++ T = 35%N :: t') as (t' & Et) by (destruct n; [lia|cbn; eauto]).
  rewrite Et. unfold scan. destruct (gap_first a 35%N t' Ha eq_refl) as [-> ->]. rewrite <- Et.
  change (N.eqb 35 nl) with false. change (N.eqb 35 c_pipe) with false. change (N.eqb 35 c_bslash) with false. change (N.eqb 35 c_gt) with false. change (N.eqb 35 c_dash) with false. change (N.eqb 35 c_hash) with true. cbv iota.
  rewrite Ed. change 35%N with c_hash in *. rewrite take_run, drop_run, repeat_length by assumption. rewrite <- Ed.
  destruct (blanks_wide s ((c :: w) ++ T) Hs) as [-> ->]; [exact Hc|]. reflexivity.
Qed.

(** * Multiline fields *)

Lemma front_line p r y rest : p ++ r = y ++ nl :: rest -> ~ In nl p -> exists y1, y = p ++ y1 /\ r = y1 ++ nl :: rest.
Proof.
  revert y. induction p as [|c p IH]; intros y E Hp; [now exists y|]. destruct y as [|d y]; cbn in E; injection E as -> E; [exfalso; apply Hp; now left|].
  destruct (IH y E) as (y1 & -> & ->); [intro; apply Hp; now right|]. now exists y1.
Qed.
Lemma split_gap r : exists g, r = g ++ after_spaces r /\ gap g.
Proof.
  exists (takewhile hspace r). split; [apply split_spaces|]. unfold gap. induction r as [|c r IH]; cbn; [reflexivity|]. destruct (hspace c) eqn:E; cbn; [now rewrite E|reflexivity].
Qed.
Lemma dashes_no_nl n : ~ In nl (repeat 45%N n).
Proof. intro H. apply repeat_spec in H. discriminate. Qed.
Lemma closing_dashed n k j l R : 1 <= n -> trimmed k -> dashed n k l -> ends R -> exists o s, closing_line (repeat 45%N n) k j (l ++ R) = Some (o, s, j + length l).
Proof.
  intros Hn Hk [a b z Ha Hb Hz Hd] HR. change (U "-") with [45%N] in *. rewrite run_repeat. rewrite <- !app_assoc. unfold closing_line.
  destruct (spaces_gap a (repeat 45%N n ++ b ++ k ++ z ++ R) Ha) as [-> ->]; [destruct n; [lia|reflexivity]|]. rewrite strip_self, repeat_length.
  destruct (trimmed_cons k Hk) as (c & w & E & Hc & _).
  assert (match b ++ k ++ z ++ R with c :: _ => N.eqb c c_dash | [] => false end = false) as ->.
  { destruct b as [|y b]; cbn [app].
    - rewrite E. cbn [app]. apply N.eqb_neq. intros ->. apply (Hd eq_refl). rewrite E. now exists w.
    - apply N.eqb_neq. intros ->. discriminate Hb. }
  destruct (spaces_gap b (k ++ z ++ R) Hb) as [-> ->]; [rewrite E; exact Hc|]. rewrite strip_self, line_ends by (auto; now apply gap_no_nl). unfold gap in Hz. rewrite Hz.
  rewrite eol_ends by (auto; now apply gap_no_nl). do 2 eexists. do 2 f_equal. rewrite !app_length, repeat_length. lia.
Qed.
Lemma closing_inv n k j y rest x : closing_line (repeat 45%N n) k j (y ++ nl :: rest) = Some x -> ~ In nl y -> trimmed k -> dashed n k y.
Proof.
  intros H Hy Hk. unfold closing_line in H. destruct (split_gap (y ++ nl :: rest)) as (g & S1 & Hg).
  symmetry in S1. apply front_line in S1 as (y' & Ey & E1); [|apply not_nl_in, gap_no_nl, Hg]. rewrite E1 in H.
  destruct (strip_prefix _ _) as [r1|] eqn:E2; [|discriminate]. apply strip_prefix_app in E2. symmetry in E2. apply front_line in E2 as (y1 & Ey' & ->); [|apply dashes_no_nl].
  destruct (split_gap (y1 ++ nl :: rest)) as (b & S2 & Hb).
  symmetry in S2. apply front_line in S2 as (y2 & E3 & E4); [|apply not_nl_in, gap_no_nl, Hb]. rewrite E4 in H. subst y y'.
  destruct (match y1 ++ nl :: rest with c :: _ => N.eqb c c_dash | [] => false end) eqn:E5; [discriminate|].
  destruct (strip_prefix k _) as [r2|] eqn:E6; [|discriminate]. apply strip_prefix_app in E6. symmetry in E6. apply front_line in E6 as (z & -> & ->); [|apply Hk].
  destruct (forallb hspace _) eqn:E7; [|discriminate]. rewrite line_of_nl in E7 by (apply not_nl_in; intro; apply Hy; rewrite E3, !in_app_iff; auto 6).
  rewrite E3. rewrite <- (run_repeat 45%N n). apply (dashed_line n k g b z); auto. intros Eb (w & Ew). rewrite E3, Eb, Ew in E5. discriminate E5.
Qed.
Lemma find_dashed n k l R : 1 <= n -> trimmed k -> dashed n k l -> ends R -> forall w i, (forall x y z, w ++ [nl] = x ++ nl :: y ++ nl :: z -> ~ In nl y -> ~ dashed n k y) ->
  exists o s, find_closing (repeat 45%N n) k i (w ++ nl :: l ++ R) = Some (i + length w, (o, s, S (i + length w) + length l)).
Proof.
  intros Hn Hk Hl HR. induction w as [|c w IH]; intros i Hw.
  - cbn [app find_closing]. change (N.eqb nl nl) with true. cbv iota. destruct (closing_dashed n k (S i) l R Hn Hk Hl HR) as (o & s & ->). exists o, s. cbn [length]. now rewrite Nat.add_0_r.
  - cbn [app find_closing].
    assert ((if N.eqb c nl then closing_line (repeat 45%N n) k (S i) (w ++ nl :: l ++ R) else None) = None) as ->.
    { destruct (N.eqb_spec c nl) as [->|]; [|reflexivity]. destruct (closing_line _ _ _ _) as [x|] eqn:E; [|reflexivity]. exfalso.
      assert (exists y z, w ++ [nl] = y ++ nl :: z /\ ~ In nl y /\ exists z', w ++ nl :: l ++ R = y ++ nl :: z') as (y & z & E1 & E2 & z' & E3).
      { clear. generalize (l ++ R) as T. intro T. induction w as [|c w (y & z & E1 & E2 & z' & E3)]; [exists [], []; split; [reflexivity|]; split; [intros []|]; now exists T|].
        destruct (N.eqb_spec c nl) as [->|Hc]; [exists [], (w ++ [nl]); split; [reflexivity|]; split; [intros []|]; now exists (w ++ nl :: T)|].
        exists (c :: y), z. cbn. rewrite E1. split; [reflexivity|]. split; [intros [?|?]; auto|]. exists z'. now rewrite E3. }
      rewrite E3 in E. apply closing_inv in E; auto. apply (Hw [] y z); auto. cbn. now rewrite E1. }
    destruct (IH (S i)) as (o & s & ->).
    + intros x y z E. apply (Hw (c :: x) y z). cbn. now rewrite E.
    + exists o, s. cbn [length]. replace (S i + length w) with (i + S (length w)) by lia. reflexivity.
Qed.
Lemma scan_dashed i n k l R : 2 <= n -> trimmed k -> dashed n k l -> ends R -> exists p q, scan i (l ++ R) = Some (TMultiline (p, p + n) (q, q + length k), i + length l) /\
  exists u v w, l = u ++ repeat 45%N n ++ v ++ k ++ w /\ p = i + length u /\ q = p + n + length v.
Proof.
  intros Hn Hk [a b z Ha Hb Hz Hd] HR. change (U "-") with [45%N] in *. rewrite run_repeat. exists (i + length a), (i + length a + n + length b). split; [|exists a, b, z; auto]. rewrite <- !app_assoc.
  destruct (trimmed_cons k Hk) as (c & w & E & Hc & _).
  assert (exists d t, b ++ k ++ z ++ R = d :: t /\ d <> 45%N) as (d & t & Ed & Hdd).
  { destruct b as [|y b]; [rewrite E|]; cbn [app]; eexists _, _; (split; [reflexivity|]); intros ->; [apply (Hd eq_refl); rewrite E; now exists w|discriminate Hb]. }
  assert (exists t', repeat 45%N n ++ b ++ k ++ z ++ R = 45%N :: t') as (t' & Et) by (destruct n; [lia|cbn; eauto]).
  rewrite Et. unfold scan. destruct (gap_first a 45%N t' Ha eq_refl) as [-> ->]. rewrite <- Et.
  change (N.eqb 45 nl) with false. change (N.eqb 45 c_pipe) with false. change (N.eqb 45 c_bslash) with false. change (N.eqb 45 c_gt) with false. change (N.eqb 45 c_dash) with true. cbv iota.
  rewrite Ed. change 45%N with c_dash in *. rewrite take_run, drop_run, repeat_length by assumption. rewrite <- Ed. destruct (Nat.eqb_spec n 1); [lia|].
  rewrite opt_value_in by assumption. do 2 f_equal.
  replace (repeat c_dash n ++ b ++ k ++ z ++ R) with ((repeat c_dash n ++ b ++ k ++ z) ++ R) by now rewrite <- !app_assoc. rewrite eol_ends; [rewrite !app_length, repeat_length; lia| |assumption].
  rewrite !forallb_app, (gap_no_nl b Hb), (trimmed_no_nl k Hk), (gap_no_nl z Hz), !andb_true_r. apply not_nl_in, dashes_no_nl.
Qed.

Section Doc.
  Context (inp : text).

  Definition said_here (i : nat) (t : text) (x : said) : Prop := forall l, says inp (S (i + length t)) l -> says inp i (x :: l).
  Lemma said_by i t x tok R : at_pos inp i (t ++ R) -> t ++ R <> [] -> scan i (t ++ R) = Some (tok, i + length t) -> meaning inp i tok = Some x -> said_here i t x.
  Proof.
    intros HP Hne Hs Hm l Hl. pose proof (at_pos_len _ _ _ HP) as Hlen. destruct HP as [HP _]. eapply sy_line; [|rewrite HP; exact Hs|exact Hm|exact Hl].
    destruct (t ++ R); [congruence|]. cbn in Hlen. lia.
  Qed.

  (** an operator and a value *)
  Lemma value_line i a c r v R tok : gap a -> hspace c = false -> N.eqb c nl = false -> value_of r v -> ends R -> at_pos inp i ((a ++ c :: r) ++ R) ->
    scan i (a ++ c :: r ++ R) = Some (tok (i + length a, i + length a + 1) (opt_value (i + length a + 1) (r ++ R)), eol (i + length a) (c :: r ++ R)) ->
    forall x, (forall o s, text_at inp s = v -> meaning inp i (tok o s) = Some x) -> said_here i (a ++ c :: r) x.
  Proof.
    intros Ha Hc Hn Hv HR HP Hs x Hm. apply (said_by i _ x (tok (i + length a, i + length a + 1) (opt_value (i + length a + 1) (r ++ R))) R HP); [destruct a; discriminate| |].
    - rewrite <- app_assoc. cbn [app]. rewrite Hs. do 2 f_equal. rewrite app_comm_cons, eol_ends; [rewrite app_length; lia| |assumption]. cbn [forallb]. unfold not_nl at 1. rewrite Hn. now apply (value_no_nl r v).
    - apply Hm. apply value_read; auto. rewrite <- app_assoc in HP. cbn [app] in HP. apply at_pos_app in HP as [HP _]. apply at_pos_cons in HP as [HP _]. now rewrite Nat.add_1_r.
  Qed.

  Lemma instruction_said i t x R : instruction t x -> at_pos inp i (t ++ R) -> ends R -> t ++ R <> [] -> said_here i t x.
  Proof.
    intros Hi HP HR Hne. revert HP Hne.
    destruct Hi as [w Hw|a b t z Ha Hb Ht Hz|a z Ha Hz|a r v Ha Hv|a r v Ha Hv|a r v Ha Hv Hd|a kt k s r v Ha Hk Hs Hv|a kt k s r v Ha Hk Hs Hv|a kt k s s' t z Ha Hk Hs Hs' Ht Hz
      |a n s kt k z Ha Hn Hs Hk Hx Hz|a n s kt k b deep b' t z Ha Hn Hs Hk Hx Hb Hb' Ht Hz Hd|n k l l' Hn Hk Hl Hl'|n k l v l' Hn Hk Hl Hl' Hv]; intros HP Hne.
    - apply (said_by i w SaysEmpty (TEmpty (i + length w)) R HP Hne); [|reflexivity]. unfold scan. destruct (spaces_gap w R Hw (ends_visible R HR)) as [-> ->]. destruct HR as [->|(r & ->)]; reflexivity.
    - change (U ">") with [62%N] in *. cbn [app] in *. assert (value_of (b ++ t ++ z) (Some t)) as Hv by now constructor.
      apply (said_by i _ _ (TComment (i + length a, i + length a + 1) (opt_value (i + length a + 1) ((b ++ t ++ z) ++ R))) R HP Hne).
      + rewrite <- app_assoc. cbn [app]. unfold scan. destruct (gap_first a 62%N ((b ++ t ++ z) ++ R) Ha eq_refl) as [-> ->]. change (N.eqb 62 nl) with false. change (N.eqb 62 c_pipe) with false. change (N.eqb 62 c_bslash) with false. change (N.eqb 62 c_gt) with true. cbv beta iota zeta. do 2 f_equal.
        change (62%N :: (b ++ t ++ z) ++ R) with ((62%N :: b ++ t ++ z) ++ R). rewrite eol_ends; [rewrite (app_length a); lia| |assumption]. cbn [forallb]. rewrite (value_no_nl _ _ Hv). reflexivity.
      + cbn [meaning]. rewrite (value_read inp _ _ (Some t) R Hv HR).
        * rewrite <- !app_assoc. rewrite opt_value_in by assumption. cbn [fst]. do 2 f_equal. lia.
        * rewrite <- app_assoc in HP. cbn [app] in HP. apply at_pos_app in HP as [HP _]. apply at_pos_cons in HP as [HP _]. now rewrite Nat.add_1_r.
    - change (U ">") with [62%N] in *. cbn [app] in *. apply (said_by i _ _ (TComment (i + length a, i + length a + 1) (opt_value (i + length a + 1) (z ++ R))) R HP Hne).
      + rewrite <- app_assoc. cbn [app]. unfold scan. destruct (gap_first a 62%N (z ++ R) Ha eq_refl) as [-> ->]. change (N.eqb 62 nl) with false. change (N.eqb 62 c_pipe) with false. change (N.eqb 62 c_bslash) with false. change (N.eqb 62 c_gt) with true. cbv beta iota zeta. do 2 f_equal.
        change (62%N :: z ++ R) with ((62%N :: z) ++ R). rewrite eol_ends; [rewrite (app_length a); lia| |assumption]. cbn [forallb]. rewrite (gap_no_nl _ Hz). reflexivity.
      + cbn [meaning]. now rewrite opt_value_gap.
    - change (U "|") with [124%N] in *. cbn [app] in *. eapply (value_line i a 124%N r v R TDirect); auto.
      + unfold scan. destruct (gap_first a 124%N (r ++ R) Ha eq_refl) as [-> ->]. reflexivity.
      + intros o sp E. cbn [meaning]. now rewrite E.
    - change (U "\") with [92%N] in *. cbn [app] in *. eapply (value_line i a 92%N r v R TSpaced); auto.
      + unfold scan. destruct (gap_first a 92%N (r ++ R) Ha eq_refl) as [-> ->]. reflexivity.
      + intros o sp E. cbn [meaning]. now rewrite E.
    - change (U "-") with [45%N] in *. cbn [app] in *. eapply (value_line i a 45%N r v R TItem); auto.
      + unfold scan. destruct (gap_first a 45%N (r ++ R) Ha eq_refl) as [-> ->]. change (N.eqb 45 nl) with false. change (N.eqb 45 c_pipe) with false. change (N.eqb 45 c_bslash) with false. change (N.eqb 45 c_gt) with false. change (N.eqb 45 c_dash) with true. cbv beta iota zeta.
        assert (takewhile (fun x => N.eqb x c_dash) (45%N :: r ++ R) = [45%N]) as ->; [|reflexivity]. cbn [takewhile]. change (N.eqb 45 c_dash) with true. cbv iota. f_equal.
        destruct r as [|c r]; cbn [app takewhile].
        * destruct HR as [->|(r & ->)]; reflexivity.
        * destruct (N.eqb_spec c c_dash) as [->|]; [|reflexivity]. exfalso. apply Hd. now exists r.
      + intros o sp E. cbn [meaning]. now rewrite E.
    - (* field *)
      change (U ":") with [58%N] in *. cbn [app] in *. set (p := i + length a + length kt + length s) in *. rewrite <- !app_assoc in HP. cbn [app] in HP.
      assert (late_tail (i + length a + length kt) (s ++ 58%N :: r ++ R) = Some (LField (p, p + 1) (opt_value (p + 1) (r ++ R)), p + 1 + length r)) as HT.
      { unfold late_tail. destruct (blanks_wide s (58%N :: r ++ R) Hs eq_refl) as [-> ->]. fold p. change (N.eqb 58 c_colon) with true. cbv beta iota zeta. rewrite eol_ends by (auto; apply (value_no_nl r v Hv)). reflexivity. }
      pose proof HP as HP1. apply at_pos_app in HP1 as [HP1 _].
      destruct (element_key_read late_tail inp (i + length a) kt k _ _ Hk late_tick (wide_ends s 58%N (r ++ R) key_char Hs eq_refl eq_refl) HT HP1) as (ks & E & Ek).
      apply (said_by i _ _ (TField ks (p, p + 1) (opt_value (p + 1) (r ++ R))) R); [rewrite <- !app_assoc; exact HP|exact Hne| |].
      + rewrite <- !app_assoc. cbn [app]. rewrite scan_element, E by (auto; now apply (element_head kt k)). do 2 f_equal. unfold p. rewrite !app_length. cbn [length]. lia.
      + cbn [meaning]. rewrite Ek. do 2 f_equal. apply value_read; auto. unfold p.
        apply at_pos_app in HP1 as [HP1 _]. apply at_pos_app in HP1 as [HP1 _]. apply at_pos_cons in HP1 as [HP1 _]. now rewrite Nat.add_1_r.
    - (* entry *)
      change (U "=") with [61%N] in *. cbn [app] in *. set (p := i + length a + length kt + length s) in *. rewrite <- !app_assoc in HP. cbn [app] in HP.
      assert (late_tail (i + length a + length kt) (s ++ 61%N :: r ++ R) = Some (LEntry (p, p + 1) (opt_value (p + 1) (r ++ R)), p + 1 + length r)) as HT.
      { unfold late_tail. destruct (blanks_wide s (61%N :: r ++ R) Hs eq_refl) as [-> ->]. fold p. change (N.eqb 61 c_colon) with false. change (N.eqb 61 c_eq) with true. cbv beta iota zeta.
        rewrite eol_ends by (auto; apply (value_no_nl r v Hv)). reflexivity. }
      pose proof HP as HP1. apply at_pos_app in HP1 as [HP1 _].
      destruct (element_key_read late_tail inp (i + length a) kt k _ _ Hk late_tick (wide_ends s 61%N (r ++ R) key_char Hs eq_refl eq_refl) HT HP1) as (ks & E & Ek).
      apply (said_by i _ _ (TEntry ks (p, p + 1) (opt_value (p + 1) (r ++ R))) R); [rewrite <- !app_assoc; exact HP|exact Hne| |].
      + rewrite <- !app_assoc. cbn [app]. rewrite scan_element, E by (auto; now apply (element_head kt k)). do 2 f_equal. unfold p. rewrite !app_length. cbn [length]. lia.
      + cbn [meaning]. rewrite Ek. do 2 f_equal. apply value_read; auto. unfold p.
        apply at_pos_app in HP1 as [HP1 _]. apply at_pos_app in HP1 as [HP1 _]. apply at_pos_cons in HP1 as [HP1 _]. now rewrite Nat.add_1_r.
    - (* copy *)
      change (U "<") with [60%N] in *. cbn [app] in *. set (p := i + length a + length kt + length s) in *. rewrite <- !app_assoc in HP. cbn [app] in HP. rewrite <- !app_assoc in HP.
      destruct (trimmed_cons t Ht) as (c & w & Et & _ & Hc & _).
      assert (late_tail (i + length a + length kt) (s ++ 60%N :: s' ++ t ++ z ++ R) = Some (LCopy (p, p + 1) (p + 1 + length s', p + 1 + length s' + length t), p + 1 + length s' + length t + length z)) as HT.
      { unfold late_tail. destruct (blanks_wide s (60%N :: s' ++ t ++ z ++ R) Hs eq_refl) as [-> ->]. fold p. change (N.eqb 60 c_colon) with false. change (N.eqb 60 c_eq) with false. change (N.eqb 60 c_lt) with true. cbv beta iota zeta.
        destruct (blanks_wide s' (t ++ z ++ R) Hs') as [-> ->]; [rewrite Et; exact Hc|]. pose proof (opt_value_in (p + 1 + length s') [] t z R eq_refl Ht Hz HR) as O. cbn [app length] in O. rewrite Nat.add_0_r in O. rewrite O.
        rewrite app_assoc, eol_ends by (auto; rewrite forallb_app, (trimmed_no_nl t Ht), (gap_no_nl z Hz); reflexivity). rewrite app_length. do 2 f_equal. lia. }
      pose proof HP as HP1. apply at_pos_app in HP1 as [HP1 _].
      destruct (element_key_read late_tail inp (i + length a) kt k _ _ Hk late_tick (wide_ends s 60%N (s' ++ t ++ z ++ R) key_char Hs eq_refl eq_refl) HT HP1) as (ks & E & Ek).
      apply (said_by i _ _ (TCopy ks (p, p + 1) (p + 1 + length s', p + 1 + length s' + length t)) R); [rewrite <- !app_assoc; cbn [app]; rewrite <- !app_assoc; exact HP|exact Hne| |].
      + rewrite <- !app_assoc. cbn [app]. rewrite <- !app_assoc. rewrite scan_element, E by (auto; now apply (element_head kt k)). do 2 f_equal. unfold p. rewrite !app_length. cbn [length]. rewrite !app_length. lia.
      + cbn [meaning]. rewrite Ek. do 2 f_equal. unfold p.
        apply at_pos_app in HP1 as [HP1 _]. apply at_pos_app in HP1 as [HP1 _]. apply at_pos_cons in HP1 as [HP1 _]. rewrite Nat.add_1_r. exact (at_pos_sub inp _ s' t (z ++ R) HP1).
    - (* section *)
      change (U "#") with [35%N] in *. rewrite run_repeat in *. rewrite <- !app_assoc in HP.
      assert (section_tail (i + length a + n + length s + length kt) (z ++ R) = Some (None, i + length a + n + length s + length kt + length z)) as HT.
      { unfold section_tail. destruct (spaces_gap z R Hz (ends_visible R HR)) as [-> ->]. destruct HR as [->|(r & ->)]; reflexivity. }
      pose proof HP as HP1. apply at_pos_app in HP1 as [HP1 HA]. pose proof HP1 as HP2. apply at_pos_app in HP1 as [HP1 HO]. rewrite repeat_length in *. apply at_pos_app in HP1 as [HP1 _].
      destruct (section_key_read inp (i + length a + n + length s) kt k (z ++ R) _ Hk (gap_ends z R skey_char Hz HR eq_refl) HT HP1) as (ks & E & Ek).
      apply (said_by i _ _ (TSection (i + length a, i + length a + n) ks None) R); [rewrite <- !app_assoc; exact HP|exact Hne| |].
      + rewrite <- !app_assoc. rewrite (scan_hash i a n s kt k) by assumption. rewrite E. do 2 f_equal. rewrite !app_length, repeat_length. lia.
      + cbn [meaning option_map]. rewrite Ek. unfold width. cbn [fst snd]. do 2 f_equal. lia.
    - (* section copy *)
      change (U "#") with [35%N] in *. rewrite run_repeat in *. set (op := if deep then U "<<" else U "<") in *. rewrite <- !app_assoc in HP.
      set (p := i + length a + n + length s + length kt + length b) in *. set (m := length op) in *.
      assert (section_tail (i + length a + n + length s + length kt) (b ++ op ++ b' ++ t ++ z ++ R) =
        Some (Some ((p, p + m), (p + m + length b', p + m + length b' + length t)), p + m + length b' + length t + length z)) as HT.
      { destruct (trimmed_cons t Ht) as (c & w & Et & _). assert (exists t', op ++ b' ++ t ++ z ++ R = 60%N :: t') as (t' & Eop) by (unfold op; destruct deep; cbn; eauto).
        unfold section_tail. destruct (spaces_gap b (op ++ b' ++ t ++ z ++ R) Hb) as [-> ->]; [rewrite Eop; reflexivity|]. fold p.
        assert (opt_value (p + m) (b' ++ t ++ z ++ R) = Some (p + m + length b', p + m + length b' + length t)) as O by now apply opt_value_in.
        assert (eol (p + m) (b' ++ t ++ z ++ R) = p + m + length b' + length t + length z) as O'.
        { replace (b' ++ t ++ z ++ R) with ((b' ++ t ++ z) ++ R) by now rewrite <- !app_assoc. rewrite eol_ends; [rewrite !app_length; lia| |assumption].
          now rewrite !forallb_app, (gap_no_nl b'), (trimmed_no_nl t), (gap_no_nl z). }
        destruct deep; unfold m, op in *; cbv iota in O, O' |- *; change (length (U "<<")) with 2 in *; change (length (U "<")) with 1 in *; [change (U "<<") with [60%N; 60%N]|change (U "<") with [60%N]]; cbn [app]; change (N.eqb 60 nl) with false; change (N.eqb 60 c_lt) with true; cbv iota.
        - now rewrite O, O'.
        - assert (match b' ++ t ++ z ++ R with d :: r2 => if N.eqb d c_lt then (2, r2) else (1, d :: r2) | [] => (1, []) end = (1, b' ++ t ++ z ++ R)) as K.
          { destruct b' as [|y b']; cbn [app].
            - rewrite Et. cbn [app]. destruct (N.eqb_spec c c_lt) as [->|]; [|reflexivity]. exfalso. apply (Hd eq_refl eq_refl). rewrite Et. now exists w.
            - destruct (N.eqb_spec y c_lt) as [->|]; [discriminate Hb'|reflexivity]. }
          match type of K with ?x = _ => match goal with |- (let '(n, r2) := ?y in _) = _ => replace y with x by (destruct (b' ++ t ++ z ++ R) as [|q qs]; [reflexivity|destruct (N.eqb q c_lt); reflexivity]) end end.
          rewrite K. now rewrite O, O'. }
      pose proof HP as HP1. apply at_pos_app in HP1 as [HP1 HA]. apply at_pos_app in HP1 as [HP1 HO]. rewrite repeat_length in *. apply at_pos_app in HP1 as [HP1 _].
      assert (key_ends skey_char (b ++ op ++ b' ++ t ++ z ++ R)) as HE by (exists b, (op ++ b' ++ t ++ z ++ R); split; [reflexivity|]; split; [assumption|]; unfold op; destruct deep; reflexivity).
      destruct (section_key_read inp (i + length a + n + length s) kt k _ _ Hk HE HT HP1) as (ks & E & Ek).
      apply (said_by i _ _ (TSection (i + length a, i + length a + n) ks (Some ((p, p + m), (p + m + length b', p + m + length b' + length t)))) R); [rewrite <- !app_assoc; exact HP|exact Hne| |].
      + rewrite <- !app_assoc. rewrite (scan_hash i a n s kt k) by assumption. rewrite E. do 2 f_equal. unfold p, m. rewrite !app_length, repeat_length. lia.
      + apply at_pos_app in HP1 as [HP1 _]. apply at_pos_app in HP1 as [HP1 _]. fold p in HP1. apply at_pos_app in HP1 as [HP1 _]. fold m in HP1.
        cbn [meaning option_map fst snd]. rewrite Ek. unfold width. cbn [fst snd]. rewrite (at_pos_sub inp (p + m) b' t (z ++ R) HP1 : at_range inp _ = t).
        do 2 f_equal; [lia|]. do 2 f_equal. replace (p + m - p) with m by lia. unfold m, op. now destruct deep.
    - (* multiline without lines *)
      intros ls Hls. destruct (scan_dashed i n k l (nl :: l' ++ R) Hn Hk Hl) as (p & q & Es & u & v & w & El & Ep & Eq); [right; eauto|].
      assert (at_range inp (p, p + n) = repeat 45%N n /\ at_range inp (q, q + length k) = k) as [Eo Ek].
      { rewrite <- app_assoc in HP. cbn [app] in HP. rewrite El, <- !app_assoc in HP. apply at_pos_app in HP as [HP _]. rewrite <- Ep in HP. apply at_pos_app in HP as [HP HO]. rewrite repeat_length in *. split; [exact HO|].
        rewrite Eq. exact (at_pos_sub inp (p + n) v k _ HP). }
      rewrite <- app_assoc in HP. cbn [app] in HP. pose proof (at_pos_len _ _ _ HP) as Hlen. pose proof HP as HP1. apply at_pos_app in HP1 as [HP1 _]. destruct HP as [HP _], HP1 as [HP1 _].
      destruct (closing_dashed n k (S (i + length l)) l' R ltac:(lia) Hk Hl' HR) as (o & s & Ec).
      pose proof (sy_multiline inp i (p, p + n) (q, q + length k) (i + length l) (i + length l) o s (S (i + length l) + length l') ls) as Y. rewrite HP, HP1, Eo, Ek, Nat.eqb_refl in Y. apply Y; auto.
      + rewrite app_length in Hlen. cbn [length] in Hlen. lia.
      + cbn [find_closing]. change (N.eqb nl nl) with true. cbv iota. now rewrite Ec.
      + rewrite app_length in Hls. cbn [length] in Hls. replace (S (S (i + length l) + length l')) with (S (i + (length l + S (length l')))) by lia. exact Hls.
    - (* multiline with lines *)
      intros ls Hls. destruct (scan_dashed i n k l (nl :: v ++ nl :: l' ++ R) Hn Hk Hl) as (p & q & Es & u & v' & w & El & Ep & Eq); [right; eauto|].
      rewrite <- app_assoc in HP. cbn [app] in HP. rewrite <- app_assoc in HP. cbn [app] in HP.
      assert (at_range inp (p, p + n) = repeat 45%N n /\ at_range inp (q, q + length k) = k) as [Eo Ek].
      { rewrite El, <- !app_assoc in HP. apply at_pos_app in HP as [HP _]. rewrite <- Ep in HP. apply at_pos_app in HP as [HP HO]. rewrite repeat_length in *. split; [exact HO|].
        rewrite Eq. exact (at_pos_sub inp (p + n) v' k _ HP). }
      pose proof (at_pos_len _ _ _ HP) as Hlen. pose proof HP as HP1. apply at_pos_app in HP1 as [HP1 _]. pose proof HP1 as HP2. apply at_pos_cons in HP2 as [HP2 _]. apply at_pos_app in HP2 as [_ HV]. destruct HP as [HP _], HP1 as [HP1 _].
      destruct (find_dashed n k l' R ltac:(lia) Hk Hl' HR (nl :: v) (i + length l) Hv) as (o & s & Ec). cbn [length app] in Ec.
      pose proof (sy_multiline inp i (p, p + n) (q, q + length k) (i + length l) (i + length l + S (length v)) o s (S (i + length l + S (length v)) + length l') ls) as Y. rewrite HP, HP1, Eo, Ek in Y.
      destruct (Nat.eqb_spec (i + length l + S (length v)) (i + length l)); [lia|]. replace (i + length l + S (length v)) with (S (i + length l) + length v) in Y at 4 by lia.
      change (sub inp (S (i + length l), S (i + length l) + length v)) with (slice inp (S (i + length l)) (S (i + length l) + length v)) in HV. rewrite HV in Y. apply Y; auto.
      + rewrite !app_length in Hlen. cbn [length] in Hlen. lia.
      + rewrite app_length in Hls. cbn [length] in Hls. rewrite app_length in Hls. cbn [length] in Hls.
        replace (S (S (i + length l + S (length v)) + length l')) with (S (i + (length l + S (length v + S (length l'))))) by lia. exact Hls.
  Qed.

  Lemma written_says d l : written d l -> forall i, at_pos inp i d -> says inp i l.
  Proof.
    induction 1 as [|t x Ht Hx|t x d l Hx Hd IH]; intros i HP.
    - apply sy_end. apply at_pos_len in HP. cbn in HP. lia.
    - pose proof (at_pos_len _ _ _ HP) as Hlen. apply (instruction_said i t x [] Hx); [now rewrite app_nil_r|now left|now rewrite app_nil_r|]. apply sy_end. lia.
    - apply (instruction_said i t x (nl :: d) Hx HP); [right; eauto|destruct t; discriminate|]. apply IH. apply at_pos_app in HP as [HP _]. now apply at_pos_cons in HP as [HP _].
  Qed.
End Doc.
