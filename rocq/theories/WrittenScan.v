(** WrittenScan: the line grammar of [Scan] reads what [SpecWritten] produces (lemmas for C57). *)
From Verif Require Import Base Regex Grammar Scan ScanProofs Types TokenStep ScanFacts SpecText SpecRead SpecCanon CanonScan SpecSaid SpecWritten.

Definition ends (R : text) : Prop := R = [] \/ exists r, R = nl :: r.

Lemma gap_app a b : gap (a ++ b) <-> gap a /\ gap b.
Proof. unfold gap. rewrite forallb_app, andb_true_iff. reflexivity. Qed.
Lemma gap_no_nl a : gap a -> forallb not_nl a = true.
Proof.
  unfold gap. rewrite !forallb_forall. intros H x Hx. specialize (H x Hx). unfold hspace in H. apply andb_true_iff in H as [_ H]. exact H.
Qed.
Lemma gap_wide a : gap a -> wide a.
Proof. unfold gap, wide. rewrite !forallb_forall. intros H x Hx. specialize (H x Hx). unfold hspace in H. now apply andb_true_iff in H as [H _]. Qed.
Lemma run_repeat c n : run [c] n = repeat c n.
Proof. unfold run. induction n as [|n IH]; cbn; [reflexivity|]. now f_equal. Qed.

(** behind white space *)
Definition visible_first (t : text) : Prop := match t with c :: _ => hspace c = false | [] => True end.
Lemma spaces_gap a t : gap a -> visible_first t -> spaces (a ++ t) = length a /\ after_spaces (a ++ t) = t.
Proof.
  intros Ha Ht. unfold spaces, after_spaces. rewrite takewhile_app, dropwhile_app by exact Ha. destruct t as [|c t]; cbn [takewhile dropwhile]; [now rewrite app_nil_r|].
  cbn in Ht. rewrite Ht, app_nil_r. auto.
Qed.
Lemma ends_visible R : ends R -> visible_first R.
Proof. intros [->|(r & ->)]; cbn; reflexivity. Qed.
Lemma blanks_wide s t : wide s -> match t with c :: _ => is_space c = false | [] => True end -> blanks (s ++ t) = length s /\ after_blanks (s ++ t) = t.
Proof.
  intros Ha Ht. unfold blanks, after_blanks. rewrite takewhile_app, dropwhile_app by exact Ha. destruct t as [|c t]; cbn [takewhile dropwhile]; [now rewrite app_nil_r|].
  rewrite Ht, app_nil_r. auto.
Qed.
Lemma line_ends t R : forallb not_nl t = true -> ends R -> line_of (t ++ R) = t.
Proof. intros Ht [->|(r & ->)]; [|now apply line_of_nl]. rewrite line_of_app by assumption. cbn. apply app_nil_r. Qed.
Lemma eol_ends i t R : forallb not_nl t = true -> ends R -> eol i (t ++ R) = i + length t.
Proof. intros Ht HR. unfold eol. now rewrite line_ends. Qed.

(** values *)
Lemma value_no_nl r v : value_of r v -> forallb not_nl r = true.
Proof. intros [w Hw|a t z Ha Ht Hz]; [now apply gap_no_nl|]. rewrite !forallb_app, (gap_no_nl a), (trimmed_no_nl t), (gap_no_nl z) by assumption. reflexivity. Qed.
Lemma opt_value_gap i w R : gap w -> ends R -> opt_value i (w ++ R) = None.
Proof.
  intros Hw HR. unfold opt_value. destruct (spaces_gap w R Hw (ends_visible R HR)) as [-> ->]. destruct HR as [->|(r & ->)]; reflexivity.
Qed.
Lemma opt_value_in i a t z R : gap a -> trimmed t -> gap z -> ends R -> opt_value i (a ++ t ++ z ++ R) = Some (i + length a, i + length a + length t).
Proof.
  intros Ha Ht Hz HR. destruct (trimmed_cons t Ht) as (c & w & E & Hc & _). unfold opt_value.
  destruct (spaces_gap a (t ++ z ++ R) Ha) as [-> ->]; [rewrite E; exact Hc|].
  rewrite app_assoc, line_ends by (rewrite ?forallb_app, ?(trimmed_no_nl t Ht), ?(gap_no_nl z Hz); auto). rewrite rtrim_trim by assumption. rewrite E. reflexivity.
Qed.
Definition value_at (inp : text) (o : option span) (v : option text) : Prop := text_at inp o = v.
Lemma value_read inp i r v R : value_of r v -> ends R -> at_pos inp i (r ++ R) -> text_at inp (opt_value i (r ++ R)) = v.
Proof.
  intros [w Hw|a t z Ha Ht Hz] HR HP; [now rewrite opt_value_gap|]. rewrite <- !app_assoc in *. rewrite opt_value_in by assumption. cbn. f_equal. exact (at_pos_sub inp i a t (z ++ R) HP).
Qed.

(** * Keys *)

(** the text behind a key: no key character but white space in front of what ends it *)
Definition key_ends (char_ok : char -> bool) (R : text) : Prop := exists g R', R = g ++ R' /\ gap g /\ match R' with c :: _ => char_ok c = false | [] => True end.

Lemma firstn_1 (c : char) w : firstn 1 (c :: w) = [c]. Proof. reflexivity. Qed.

Lemma tick_close n b z R r2 : strip_prefix (repeat c_tick n) (b ++ z ++ repeat c_tick n ++ R) = Some r2 -> b <> [] -> gap z ->
  (forall x y, b <> x ++ repeat c_tick n ++ y) -> exists r3, r2 = c_tick :: r3.
Proof.
  intros Hs Hb Hz Hn. assert (b ++ z ++ repeat c_tick n ++ R = repeat c_tick n ++ r2) as E.
  { now apply strip_prefix_app in Hs. }
  clear Hs. assert (length b < n) as Hl.
  { destruct (Nat.lt_ge_cases (length b) n) as [?|Hge]; [assumption|]. exfalso. apply (Hn [] (skipn n b)). cbn [app].
    rewrite <- (firstn_skipn n b) at 1. f_equal. assert (firstn n (b ++ z ++ repeat c_tick n ++ R) = firstn n (repeat c_tick n ++ r2)) as F by now rewrite E.
    rewrite firstn_app in F. replace (n - length b) with 0 in F by lia. cbn in F. rewrite app_nil_r in F. rewrite F. rewrite firstn_app, repeat_length, Nat.sub_diag. cbn. rewrite app_nil_r. apply firstn_all2. now rewrite repeat_length. }
  assert (b = repeat c_tick (length b)) as Eb.
  { assert (firstn (length b) (b ++ z ++ repeat c_tick n ++ R) = firstn (length b) (repeat c_tick n ++ r2)) as F by now rewrite E.
    rewrite firstn_app, Nat.sub_diag, firstn_all in F. cbn in F. rewrite app_nil_r in F. rewrite F at 1. rewrite firstn_app, repeat_length.
    replace (length b - n) with 0 by lia. cbn. rewrite app_nil_r. clear - Hl. revert Hl. generalize (length b) as m. induction n as [|n IH]; intros m Hm; [lia|]. destruct m as [|m]; [reflexivity|]. cbn. f_equal. apply IH. lia. }
  replace (repeat c_tick n) with (repeat c_tick (length b) ++ repeat c_tick (n - length b)) in E by (rewrite <- repeat_app; f_equal; lia). rewrite Eb in E at 1. rewrite <- !app_assoc in E. apply app_inv_head in E.
  destruct z as [|c z].
  - cbn [app] in E. replace (repeat c_tick (length b) ++ repeat c_tick (n - length b) ++ R) with (repeat c_tick (n - length b) ++ repeat c_tick (length b) ++ R) in E
      by (rewrite !app_assoc, <- !repeat_app; do 2 f_equal; lia). apply app_inv_head in E. destruct (length b) as [|m] eqn:El; [destruct b; [congruence|discriminate]|]. cbn in E. eauto.
  - exfalso. unfold gap in Hz. cbn [forallb] in Hz. apply andb_true_iff in Hz as [Hc _]. destruct (n - length b) as [|m] eqn:Em; [lia|]. cbn in E. injection E as -> _. discriminate Hc.
Qed.
Lemma close_at {A} (tail : nat -> text -> option A) n z w : forall i R x, 1 <= n -> gap z -> (w = [] \/ exists w' c, w = w' ++ [c] /\ hspace c = false) -> forallb not_nl w = true ->
  (forall x y, w <> x ++ repeat c_tick n ++ y) -> (forall j r, tail j (c_tick :: r) = None) -> tail (i + length w + length z + n) R = Some x ->
  close_key tail (repeat c_tick n) i (w ++ z ++ repeat c_tick n ++ R) = Some (i + length w, i + length w + length z, x).
Proof.
  induction w as [|y w IH]; intros i R x Hn Hz Hl Hf Hr Hno Ht.
  - cbn [app length] in *. rewrite Nat.add_0_r in *.
    assert (visible_first (repeat c_tick n ++ R)) as Hv by (destruct n; [lia|reflexivity]). destruct (spaces_gap z _ Hz Hv) as [Es Ea].
    destruct (z ++ repeat c_tick n ++ R) as [|c t] eqn:E; cbn [close_key]; rewrite Ea, strip_self, Es, repeat_length, Ht; reflexivity.
  - destruct Hl as [?|(w' & c & El & Hc)]; [discriminate|]. cbn [forallb] in Hf. apply andb_true_iff in Hf as [Hy Hf].
    assert (match strip_prefix (repeat c_tick n) (after_spaces ((y :: w) ++ z ++ repeat c_tick n ++ R)) with
            | Some r2 => tail (i + spaces ((y :: w) ++ z ++ repeat c_tick n ++ R) + length (repeat c_tick n)) r2 | None => None end = None) as Hh.
    { destruct (strip_prefix _ _) as [r2|] eqn:Es; [|reflexivity]. rewrite El, <- app_assoc in Es. cbn [app] in Es.
      destruct (after_spaces_suffix w' c (z ++ repeat c_tick n ++ R) Hc) as (a & b & Ew & Ea). rewrite Ea in Es.
      replace (b ++ c :: z ++ repeat c_tick n ++ R) with ((b ++ [c]) ++ z ++ repeat c_tick n ++ R) in Es by (rewrite <- app_assoc; reflexivity).
      apply tick_close in Es; [|destruct b; discriminate|assumption|].
      - destruct Es as (r3 & ->). apply Hno.
      - intros u v Eu. apply (Hr (a ++ u) v). rewrite El, Ew, <- !app_assoc, Eu. reflexivity. }
    cbn [app] in *. cbn [close_key]. rewrite Hh, Hy. rewrite IH with (x := x); auto.
    + cbn [length]. replace (S i + length w) with (i + S (length w)) by lia. reflexivity.
    + destruct w as [|v w0]; [now left|right]. destruct w' as [|v' w'']; cbn in El; [discriminate|]. injection El as -> El. exists w'', c. auto.
    + intros u v Eu. apply (Hr (y :: u) v). cbn. now rewrite Eu.
    + rewrite <- Ht. f_equal. cbn [length]. lia.
Qed.

Section Keys.
  Context (first char_ok : char -> bool).
  Context (Hfirst : forall c, hspace c = true -> first c = false) (Htick : first c_tick = false) (Hspace : forall c, hspace c = true -> char_ok c = true).

  Lemma plain_read {A} (tail : nat -> text -> option A) i k R x c w : k = c :: w -> trimmed k -> first c = true -> forallb char_ok w = true -> key_ends char_ok R ->
    tail (i + length k) R = Some x -> scan_key first char_ok tail i (k ++ R) = Some (Plain (i, i + length k), x).
  Proof.
    intros E Ht Hc Hw (g & R' & -> & Hg & Hd) Hx.
    assert (rtrim (c :: takewhile char_ok (w ++ g ++ R')) = k) as Hk.
    { replace (c :: takewhile char_ok (w ++ g ++ R')) with (k ++ g); [now apply rtrim_trim|]. rewrite E. cbn [app]. f_equal. rewrite !takewhile_app; auto.
      - destruct R' as [|d r]; cbn [takewhile]; [now rewrite !app_nil_r|]. now rewrite Hd, app_nil_r.
      - unfold gap in Hg. rewrite forallb_forall in *. auto. }
    assert (k ++ g ++ R' = c :: w ++ g ++ R') as Er by now rewrite E.
    rewrite Er. unfold scan_key. rewrite Hc, Hk, <- Er, skipn_app, skipn_all, Nat.sub_diag. cbn [skipn app]. now rewrite Hx.
  Qed.
  Lemma escaped_read {A} (tail : nat -> text -> option A) i kt k R x : escaped kt k -> (forall j r, tail j (c_tick :: r) = None) ->
    tail (i + length kt) R = Some x -> exists b e p, scan_key first char_ok tail i (kt ++ R) = Some (Escaped b (i + p, i + p + length k) e, x) /\
      exists u v, kt = u ++ k ++ v /\ length u = p.
  Proof.
    intros [n a k0 z Hn Ha Ht Hz Hr Hs] Hno Hx. change (U "`") with [c_tick] in *. rewrite run_repeat in *. unfold has, starts_with in *.
    destruct (trimmed_cons k0 Ht) as (c & w & E & Hc & _ & Hnl). rewrite !app_length, !repeat_length in Hx.
    do 3 eexists. split.
    - rewrite <- !app_assoc. assert (exists t, repeat c_tick n ++ a ++ k0 ++ z ++ repeat c_tick n ++ R = c_tick :: t) as (t & Et) by (destruct n; [lia|cbn; eauto]).
      rewrite Et. unfold scan_key. rewrite Htick, N.eqb_refl, <- Et.
      assert (exists d t', a ++ k0 ++ z ++ repeat c_tick n ++ R = d :: t' /\ d <> c_tick) as (d & t' & Ed & Hd).
      { destruct a as [|y a]; [|exists y, (a ++ k0 ++ z ++ repeat c_tick n ++ R); split; [reflexivity|]; intros ->; discriminate Ha].
        rewrite E. cbn [app]. eexists _, _. split; [reflexivity|]. intros ->. apply (Hs eq_refl). rewrite E. now exists w. }
      rewrite Ed, take_run, drop_run by assumption. rewrite <- Ed, repeat_length. destruct (spaces_gap a (k0 ++ z ++ repeat c_tick n ++ R) Ha) as [-> ->]; [rewrite E; exact Hc|].
      rewrite E. cbn [app]. unfold not_nl in Hnl. apply negb_true_iff in Hnl. rewrite Hnl. rewrite close_at with (x := x); auto.
      + cbn [length]. replace (S (i + n + length a) + length w) with (i + (n + length a) + S (length w)) by lia. rewrite <- Nat.add_assoc. reflexivity.
      + destruct (trimmed_last _ Ht) as (w' & c' & E' & Hc'). destruct w as [|y w0]; [now left|right].
        rewrite E in E'. destruct w' as [|z' w'']; cbn in E'; [discriminate|]. injection E' as -> E'. exists w'', c'. auto.
      + pose proof (trimmed_no_nl _ Ht) as Hf. rewrite E in Hf. cbn in Hf. now apply andb_true_iff in Hf as [_ Hf].
      + intros u v Eu. apply Hr. exists (c :: u), v. rewrite E, Eu. reflexivity.
      + rewrite <- Hx. f_equal. rewrite E. cbn [length]. lia.
    - exists (repeat c_tick n ++ a), (z ++ repeat c_tick n). split; [now rewrite <- !app_assoc|]. now rewrite app_length, repeat_length.
  Qed.
End Keys.
