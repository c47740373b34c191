(** CanonScan: the line grammar of [Scan] reads the canonical lines (lemmas for C14). *)
From Verif Require Import Base Regex Grammar Scan ScanProofs Types TokenStep ScanFacts SpecText SpecRead SpecCanon.

(** * Trimmed texts *)

Lemma trimmed_cons v : trimmed v -> exists c w, v = c :: w /\ hspace c = false /\ is_space c = false /\ not_nl c = true.
Proof.
  intros (H1 & H2 & _ & H3). destruct v as [|c w]; [congruence|]. exists c, w. cbn in H2.
  rewrite is_space_split in H2. apply orb_false_iff in H2 as [H2 H4]. repeat split; auto.
  - rewrite is_space_split, H2, H4. reflexivity.
  - unfold not_nl. now rewrite H4.
Qed.
Lemma trimmed_no_nl v : trimmed v -> forallb not_nl v = true.
Proof. intros (_ & _ & _ & H). now apply not_nl_in. Qed.
Lemma trimmed_last v : trimmed v -> exists w c, v = w ++ [c] /\ hspace c = false.
Proof.
  intros (H1 & _ & H2 & _). destruct (exists_last H1) as (w & c & ->). exists w, c. split; [reflexivity|].
  rewrite last_app_cons, is_space_split in H2. now apply orb_false_iff in H2 as [H2 _].
Qed.

Lemma forallb_rev' {A} (p : A -> bool) l : forallb p l = true -> forallb p (rev l) = true.
Proof. rewrite !forallb_forall. intros H x Hx. apply H. now apply in_rev. Qed.
Lemma rtrim_trim v s : trimmed v -> forallb hspace s = true -> rtrim (v ++ s) = v.
Proof.
  intros H Hs. destruct (trimmed_last _ H) as (w & c & -> & Hc). unfold rtrim.
  rewrite !rev_app_distr, dropwhile_app by now apply forallb_rev'. cbn [rev app dropwhile].
  rewrite Hc. cbn [rev]. now rewrite rev_involutive.
Qed.
Lemma rtrim_id v : trimmed v -> rtrim v = v.
Proof. intro H. rewrite <- (app_nil_r v) at 1. now apply rtrim_trim. Qed.

Lemma line_of_nl t r : forallb not_nl t = true -> line_of (t ++ nl :: r) = t.
Proof. intro H. rewrite line_of_app by assumption. cbn. apply app_nil_r. Qed.
Lemma eol_nl i t r : forallb not_nl t = true -> eol i (t ++ nl :: r) = i + length t.
Proof. intro H. unfold eol. now rewrite line_of_nl. Qed.

(** * Values *)

Lemma opt_value_nl i r : opt_value i (nl :: r) = None. Proof. reflexivity. Qed.
Lemma opt_value_some i j v r : trimmed v ->
  opt_value i (repeat 32%N j ++ v ++ nl :: r) = Some (i + j, i + j + length v).
Proof.
  intro H. destruct (trimmed_cons _ H) as (c & w & E & Hc & _).
  assert (after_spaces (repeat 32%N j ++ v ++ nl :: r) = v ++ nl :: r) as Ha.
  { unfold after_spaces. rewrite dropwhile_app by now (clear; induction j). rewrite E. cbn [app dropwhile]. now rewrite Hc. }
  assert (spaces (repeat 32%N j ++ v ++ nl :: r) = j) as Hs.
  { unfold spaces. rewrite takewhile_app by now (clear; induction j). rewrite E. cbn [app takewhile]. rewrite Hc.
    rewrite app_nil_r. apply repeat_length. }
  unfold opt_value. rewrite Ha, Hs, line_of_nl, rtrim_id by (auto using trimmed_no_nl). rewrite E. reflexivity.
Qed.
Lemma opt_value_sp i v r : trimmed v -> opt_value i (32%N :: v ++ nl :: r) = Some (i + 1, i + 1 + length v).
Proof. apply (opt_value_some i 1). Qed.
Definition span_behind (i : nat) (v : option text) : option span :=
  match v with Some t => Some (i + 1, i + 1 + length t) | None => None end.
Lemma opt_value_behind i v r : value_fine v -> opt_value i (behind v ++ nl :: r) = span_behind i v.
Proof. destruct v as [v|]; intro H; [now apply opt_value_sp|reflexivity]. Qed.
Lemma behind_no_nl v : value_fine v -> forallb not_nl (behind v) = true.
Proof. destruct v as [v|]; intro H; [cbn [behind forallb]; change (not_nl 32) with true; now rewrite (trimmed_no_nl _ H)|reflexivity]. Qed.

Lemma fits_trimmed v : fits v = true <-> trimmed v.
Proof.
  unfold fits, trimmed. destruct v as [|c v]; [split; [discriminate|intros [H _]; congruence]|].
  cbn [hd]. rewrite !andb_true_iff, !negb_true_iff. fold not_nl.
  change (forallb (fun x => negb (N.eqb x nl)) (c :: v)) with (forallb not_nl (c :: v)). rewrite not_nl_in.
  split; [intros [[H1 H2] H3]|intros (_ & H1 & H2 & H3)]; repeat split; auto; discriminate.
Qed.

(** * Runs of one character *)

Lemma run_prefix c n w d t r : w ++ d :: t = repeat c n ++ r -> d <> c -> n <= occurrences c w.
Proof.
  intros H Hd. revert w H. induction n as [|n IH]; intros w H; [lia|].
  destruct w as [|x w]; cbn in H; [congruence|]. injection H as -> H. apply IH in H.
  unfold occurrences in *. cbn. rewrite N.eqb_refl. cbn. lia.
Qed.
Lemma occurrences_app c a b : occurrences c (a ++ b) = occurrences c a + occurrences c b.
Proof. unfold occurrences. now rewrite filter_app, app_length. Qed.
Lemma run_none c n w d t : d <> c -> occurrences c w < n -> strip_prefix (repeat c n) (w ++ d :: t) = None.
Proof.
  intros Hd Hn. destruct (strip_prefix _ _) as [r|] eqn:E; [|reflexivity].
  apply strip_prefix_app in E. apply run_prefix in E; [lia|assumption].
Qed.
Lemma take_run c n d t : d <> c -> takewhile (fun x => N.eqb x c) (repeat c n ++ d :: t) = repeat c n.
Proof.
  intro H. apply N.eqb_neq in H. rewrite takewhile_app by (induction n; cbn; [|rewrite N.eqb_refl]; auto).
  cbn. rewrite H. apply app_nil_r.
Qed.
Lemma drop_run c n d t : d <> c -> dropwhile (fun x => N.eqb x c) (repeat c n ++ d :: t) = d :: t.
Proof.
  intro H. apply N.eqb_neq in H. rewrite dropwhile_app by (induction n; cbn; [|rewrite N.eqb_refl]; auto).
  cbn. now rewrite H.
Qed.
Lemma strip_self p r : strip_prefix p (p ++ r) = Some r.
Proof. now apply strip_prefix_app. Qed.

(** a text that is not white space only, behind its white space *)
Lemma after_spaces_suffix w c t : hspace c = false -> exists a b, w = a ++ b /\ after_spaces (w ++ c :: t) = b ++ c :: t.
Proof.
  intro Hc. induction w as [|x w IH].
  - exists [], []. cbn. unfold after_spaces. cbn. now rewrite Hc.
  - destruct IH as (a & b & -> & IH). cbn [app]. unfold after_spaces in *. cbn [dropwhile].
    destruct (hspace x) eqn:E; [exists (x :: a), b|exists [], (x :: a ++ b)]; split; auto.
Qed.

(** * Keys *)

Lemma close_far {A} (tail : nat -> text -> option A) n w i r x :
  occurrences c_tick w < n -> (w = [] \/ exists w' c, w = w' ++ [c] /\ hspace c = false) -> forallb not_nl w = true ->
  tail (i + length w + 1 + n) r = Some x ->
  close_key tail (repeat c_tick n) i (w ++ 32%N :: repeat c_tick n ++ r) = Some (i + length w, i + length w + 1, x).
Proof.
  intros Hn. revert i. induction w as [|y w IH]; intros i Hl Hf Ht.
  - cbn [app length] in *.
    assert (after_spaces (32%N :: repeat c_tick n ++ r) = repeat c_tick n ++ r) as Ha.
    { unfold after_spaces. cbn. destruct n; [cbn in Hn; lia|reflexivity]. }
    assert (spaces (32%N :: repeat c_tick n ++ r) = 1) as Hs.
    { unfold spaces. cbn. destruct n; [cbn in Hn; lia|reflexivity]. }
    cbn [close_key]. rewrite Ha, strip_self, Hs, repeat_length. rewrite Nat.add_0_r in *. now rewrite Ht.
  - destruct Hl as [?|(w' & c & El & Hc)]; [discriminate|]. cbn [forallb] in Hf. apply andb_true_iff in Hf as [Hy Hf].
    assert (strip_prefix (repeat c_tick n) (after_spaces ((y :: w) ++ 32%N :: repeat c_tick n ++ r)) = None) as Hh.
    { rewrite El, <- app_assoc. cbn [app]. destruct (after_spaces_suffix w' c (32%N :: repeat c_tick n ++ r) Hc) as (a & b & -> & ->).
      replace (b ++ c :: 32%N :: repeat c_tick n ++ r) with ((b ++ [c]) ++ 32%N :: repeat c_tick n ++ r) by now rewrite <- app_assoc.
      apply run_none; [discriminate|]. rewrite El, <- app_assoc, !occurrences_app in Hn. rewrite occurrences_app. lia. }
    cbn [app] in *. cbn [close_key]. rewrite Hh, Hy. rewrite IH; auto.
    + cbn [length]. replace (S i + length w) with (i + S (length w)) by lia. reflexivity.
    + unfold occurrences in *. cbn [filter] in Hn. destruct (N.eqb c_tick y); cbn [length] in Hn; lia.
    + destruct w as [|z w0]; [now left|right]. destruct w' as [|z' w'']; cbn in El; [discriminate|]. injection El as -> El.
      exists w'', c. auto.
    + rewrite <- Ht. f_equal. cbn [length]. lia.
Qed.

(** what is read as the key is the key *)
Definition reads_key (inp : text) (i : nat) (k : text) (ks : kspan) : Prop :=
  forall r, at_pos inp i (written_key k ++ r) -> sub inp (key_span ks) = k.

Lemma at_pos_sub inp i a b r : at_pos inp i (a ++ b ++ r) -> sub inp (i + length a, i + length a + length b) = b.
Proof. intro H. apply at_pos_app in H as [H _]. now apply at_pos_app in H as [_ H]. Qed.

Lemma unambiguous_chars k : unambiguous k = true -> trimmed k ->
  exists c r, k = c :: r /\ key_first c = true /\ skey_first c = true /\ forallb key_char r = true /\ forallb skey_char r = true.
Proof.
  intros H Ht. destruct (trimmed_cons _ Ht) as (c & r & -> & _ & Hs & _). exists c, r.
  cbn [unambiguous] in H. apply andb_true_iff in H as [H1 H2]. unfold among in H1. cbn [existsb U utf8 bytes] in H1.
  assert (forallb not_nl r = true) as Hr.
  { pose proof (trimmed_no_nl _ Ht) as Hn. cbn in Hn. now apply andb_true_iff in Hn as [_ Hn]. }
  apply negb_true_iff in H1. cbn in H1. repeat (apply orb_false_iff in H1 as [? H1]).
  split; [reflexivity|]. repeat split.
  - unfold key_first, c_gt, c_hash, c_dash, c_tick, c_bslash, c_pipe, c_colon, c_eq, c_lt.
    repeat match goal with E : N.eqb c ?x = false |- context [N.eqb c ?x] => rewrite E end. now rewrite Hs.
  - unfold skey_first, c_tick, c_lt. repeat match goal with E : N.eqb c ?x = false |- context [N.eqb c ?x] => rewrite E end. now rewrite Hs.
  - rewrite forallb_forall in *. intros x Hx. specialize (H2 x Hx). specialize (Hr x Hx). unfold among in H2. cbn in H2.
    apply negb_true_iff in H2. repeat (apply orb_false_iff in H2 as [? H2]).
    unfold key_char, not_nl, c_colon, c_eq, c_lt in *. apply negb_true_iff in Hr. repeat match goal with E : N.eqb x ?y = false |- context [N.eqb x ?y] => rewrite E end; reflexivity.
  - rewrite forallb_forall in *. intros x Hx. specialize (H2 x Hx). specialize (Hr x Hx). unfold among in H2. cbn in H2.
    apply negb_true_iff in H2. repeat (apply orb_false_iff in H2 as [? H2]).
    unfold skey_char, not_nl, c_lt in *. apply negb_true_iff in Hr. repeat match goal with E : N.eqb x ?y = false |- context [N.eqb x ?y] => rewrite E end; reflexivity.
Qed.

Lemma key_read {A} first char_ok (tail : nat -> text -> option A) inp i k sp d r x :
  (first = key_first /\ char_ok = key_char \/ first = skey_first /\ char_ok = skey_char) ->
  trimmed k -> forallb hspace sp = true -> forallb char_ok sp = true -> char_ok d = false ->
  tail (i + length (written_key k)) (sp ++ d :: r) = Some x ->
  exists ks, scan_key first char_ok tail i (written_key k ++ sp ++ d :: r) = Some (ks, x) /\ reads_key inp i k ks.
Proof.
  intros Hfc Ht Hsp Hsc Hd Htail. unfold reads_key, written_key in *. destruct (unambiguous k) eqn:Ek.
  - destruct (unambiguous_chars _ Ek Ht) as (c & w & E & F1 & F2 & C1 & C2).
    assert (first c = true /\ forallb char_ok w = true) as [Hf Hw] by (destruct Hfc as [[-> ->]|[-> ->]]; auto).
    exists (Plain (i, i + length k)). split.
    + assert (rtrim (c :: takewhile char_ok (w ++ sp ++ d :: r)) = k) as Hk.
      { replace (c :: takewhile char_ok (w ++ sp ++ d :: r)) with (k ++ sp); [now apply rtrim_trim|].
        rewrite !takewhile_app by assumption. cbn [takewhile]. rewrite Hd, app_nil_r, E. reflexivity. }
      assert (k ++ sp ++ d :: r = c :: w ++ sp ++ d :: r) as Er by now rewrite E.
      rewrite Er. unfold scan_key. rewrite Hf, Hk, <- Er, skipn_app, skipn_all, Nat.sub_diag. cbn [skipn app]. now rewrite Htail.
    + intros r0 Hp. cbn [key_span]. now apply at_pos_app in Hp as [_ Hp].
  - set (n := S (occurrences 96 k)) in *. unfold quotes in *. fold n in Htail |- *.
    destruct (trimmed_cons _ Ht) as (c & w & E & Hc & _ & Hn).
    assert (Htext : forall t, (repeat 96%N n ++ 32%N :: k ++ 32%N :: repeat 96%N n) ++ t
              = repeat c_tick n ++ 32%N :: k ++ 32%N :: repeat c_tick n ++ t).
    { intro t. rewrite <- app_assoc. cbn [app]. rewrite <- app_assoc. cbn [app]. reflexivity. }
    exists (Escaped (i, i + n) (i + n + 1, i + n + 1 + length k) (i + n + 1 + length k + 1, i + n + 1 + length k + 1 + n)). split.
    + rewrite Htext.
      assert (repeat c_tick n ++ 32%N :: k ++ 32%N :: repeat c_tick n ++ sp ++ d :: r =
              c_tick :: repeat c_tick (occurrences 96 k) ++ 32%N :: k ++ 32%N :: repeat c_tick n ++ sp ++ d :: r) as Es by reflexivity.
      rewrite Es. unfold scan_key.
      assert (first c_tick = false) as -> by (destruct Hfc as [[-> _]|[-> _]]; reflexivity). rewrite N.eqb_refl.
      rewrite <- Es. rewrite take_run, drop_run by discriminate. rewrite repeat_length.
      assert (Ha : forall t, after_spaces (32%N :: k ++ t) = k ++ t).
      { intro t. unfold after_spaces. rewrite E. cbn [app dropwhile]. rewrite Hc. reflexivity. }
      assert (Hs : forall t, spaces (32%N :: k ++ t) = 1).
      { intro t. unfold spaces. rewrite E. cbn [app takewhile]. rewrite Hc. reflexivity. }
      rewrite Ha, Hs. rewrite E. cbn [app]. unfold not_nl in Hn. apply negb_true_iff in Hn. rewrite Hn.
      rewrite close_far with (x := x).
      * cbn [length]. replace (S (i + n + 1) + length w) with (i + n + 1 + S (length w)) by lia. reflexivity.
      * unfold n. rewrite E. unfold occurrences. cbn [filter]. change c_tick with 96%N. destruct (N.eqb 96 c); cbn [length]; lia.
      * destruct (trimmed_last _ Ht) as (w' & c' & E' & Hc'). destruct w as [|y w0]; [now left|right].
        rewrite E in E'. destruct w' as [|z w'']; cbn in E'; [discriminate|]. injection E' as -> E'. exists w'', c'. auto.
      * pose proof (trimmed_no_nl _ Ht) as Hno. rewrite E in Hno. cbn in Hno. now apply andb_true_iff in Hno as [_ Hno].
      * rewrite <- Htail. f_equal. rewrite app_length. cbn [length]. rewrite app_length. cbn [length]. rewrite !repeat_length, E. cbn [length]. lia.
    + intros r0 Hp. rewrite Htext in Hp. cbn [key_span].
      pose proof (at_pos_sub inp i (repeat c_tick n ++ [32%N]) k (32%N :: repeat c_tick n ++ r0)) as Hq.
      rewrite app_length, repeat_length in Hq. cbn [length] in Hq. replace (i + n + 1) with (i + (n + 1)) by lia. apply Hq.
      rewrite <- app_assoc. exact Hp.
Qed.

(** * Instructions *)

Lemma written_head k : trimmed k -> exists c w, written_key k = c :: w /\ is_space c = false /\ hspace c = false /\
  not_nl c = true /\ c <> 35%N /\ c <> 45%N /\ c <> 62%N /\ c <> 124%N /\ c <> 92%N.
Proof.
  intro Ht. unfold written_key. destruct (unambiguous k) eqn:E.
  - destruct (trimmed_cons _ Ht) as (c & w & -> & H1 & H2 & H3). exists c, w. cbn in E. apply andb_true_iff in E as [E _].
    unfold among in E. cbn in E. apply negb_true_iff in E. repeat (apply orb_false_iff in E as [? E]).
    repeat match goal with E : N.eqb _ _ = false |- _ => apply N.eqb_neq in E end. repeat split; auto.
  - exists 96%N. eexists. split; [reflexivity|]. repeat split; auto; discriminate.
Qed.
Lemma written_no_nl k : trimmed k -> forallb not_nl (written_key k) = true.
Proof.
  intro Ht. unfold written_key. destruct (unambiguous k); [now apply trimmed_no_nl|].
  assert (forallb not_nl (quotes k) = true) as Hq.
  { unfold quotes. generalize (S (occurrences 96 k)) as n. induction n; auto. }
  rewrite forallb_app. cbn [forallb]. rewrite forallb_app. cbn [forallb]. rewrite Hq, trimmed_no_nl by assumption. reflexivity.
Qed.

Lemma vis_spaces c w : hspace c = false -> spaces (c :: w) = 0 /\ after_spaces (c :: w) = c :: w.
Proof. intro H. unfold spaces, after_spaces. cbn. now rewrite H. Qed.

Lemma neqb (a b : N) : a <> b -> N.eqb a b = false. Proof. apply N.eqb_neq. Qed.

(** the first character of an element line decides that its key is read next *)
Lemma scan_late i k t : trimmed k ->
  scan i (written_key k ++ t) =
    match scan_key key_first key_char late_tail i (written_key k ++ t) with
    | Some (k, (LField o v, e)) => Some (TField k o v, e)
    | Some (k, (LEntry o v, e)) => Some (TEntry k o v, e)
    | Some (k, (LCopy o t, e)) => Some (TCopy k o t, e)
    | None => None
    end.
Proof.
  intro Ht. destruct (written_head _ Ht) as (c & w & -> & H1 & H2 & H3 & H4 & H5 & H6 & H7 & H8). cbn [app].
  unfold scan. destruct (vis_spaces c (w ++ t) H2) as [-> ->]. rewrite Nat.add_0_r.
  unfold not_nl in H3. apply negb_true_iff in H3. rewrite H3.
  unfold c_pipe, c_bslash, c_gt, c_dash, c_hash. rewrite !neqb by assumption. reflexivity.
Qed.

Lemma scan_colon inp i k v r : trimmed k -> value_fine v ->
  let line := written_key k ++ U ":" ++ behind v in
  let p := i + length (written_key k) in
  exists ks, scan i (line ++ nl :: r) = Some (TField ks (p, p + 1) (span_behind (p + 1) v), i + length line) /\ reads_key inp i k ks.
Proof.
  intros Ht Hv line p. unfold line. change (U ":") with [58%N]. rewrite <- !app_assoc. cbn [app].
  rewrite scan_late by assumption.
  destruct (key_read key_first key_char late_tail inp i k [] 58%N (behind v ++ nl :: r)
              (LField (p, p + 1) (span_behind (p + 1) v), i + length line)) as (ks & E & Hk); auto.
  - unfold late_tail. cbn [app]. change (blanks (58%N :: behind v ++ nl :: r)) with 0.
    change (after_blanks (58%N :: behind v ++ nl :: r)) with (58%N :: behind v ++ nl :: r).
    rewrite Nat.add_0_r. fold p. change (N.eqb 58 c_colon) with true. cbv iota.
    rewrite opt_value_behind, eol_nl by (auto using behind_no_nl).
    do 2 f_equal. unfold line, p. rewrite !app_length. change (length (U ":")) with 1. change (length (U " =")) with 2. lia.
  - exists ks. cbn [app] in E. rewrite E. auto.
Qed.

Lemma scan_equals inp i k v r : trimmed k -> value_fine v ->
  let line := written_key k ++ U " =" ++ behind v in
  let p := i + length (written_key k) + 1 in
  exists ks, scan i (line ++ nl :: r) = Some (TEntry ks (p, p + 1) (span_behind (p + 1) v), i + length line) /\ reads_key inp i k ks.
Proof.
  intros Ht Hv line p. unfold line. change (U " =") with [32%N; 61%N]. rewrite <- !app_assoc. cbn [app].
  rewrite scan_late by assumption.
  destruct (key_read key_first key_char late_tail inp i k [32%N] 61%N (behind v ++ nl :: r)
              (LEntry (p, p + 1) (span_behind (p + 1) v), i + length line)) as (ks & E & Hk); auto.
  - unfold late_tail. cbn [app]. change (blanks (32%N :: 61%N :: behind v ++ nl :: r)) with 1.
    change (after_blanks (32%N :: 61%N :: behind v ++ nl :: r)) with (61%N :: behind v ++ nl :: r). fold p. cbv beta iota zeta. change (N.eqb 61 c_colon) with false. change (N.eqb 61 c_eq) with true. cbv iota.
    rewrite opt_value_behind, eol_nl by (auto using behind_no_nl).
    do 2 f_equal. unfold line, p. rewrite !app_length. change (length (U ":")) with 1. change (length (U " =")) with 2. lia.
  - exists ks. cbn [app] in E. rewrite E. auto.
Qed.

Lemma scan_item i v r : value_fine v ->
  let line := U "-" ++ behind v in
  scan i (line ++ nl :: r) = Some (TItem (i, i + 1) (span_behind (i + 1) v), i + length line).
Proof.
  intros Hv line. unfold line. change (U "-") with [45%N]. cbn [app]. unfold scan.
  destruct (vis_spaces 45 (behind v ++ nl :: r) eq_refl) as [-> ->]. rewrite Nat.add_0_r.
  change (N.eqb 45 nl) with false. change (N.eqb 45 c_pipe) with false. change (N.eqb 45 c_bslash) with false.
  change (N.eqb 45 c_gt) with false. change (N.eqb 45 c_dash) with true. cbv iota.
  assert (takewhile (fun x => N.eqb x c_dash) (45%N :: behind v ++ nl :: r) = [45%N]) as ->.
  { destruct v; reflexivity. }
  cbn [length Nat.eqb]. rewrite opt_value_behind by assumption.
  replace (45%N :: behind v ++ nl :: r) with ((45%N :: behind v) ++ nl :: r) by reflexivity.
  rewrite eol_nl; [reflexivity|]. cbn [forallb]. now rewrite behind_no_nl.
Qed.

Lemma scan_section inp i d k r : trimmed k ->
  let line := repeat 35%N (S d) ++ 32%N :: written_key k in
  exists ks, scan i (line ++ nl :: r) = Some (TSection (i, i + S d) ks None, i + length line) /\ reads_key inp (i + S d + 1) k ks.
Proof.
  intros Ht line. unfold line. rewrite <- app_assoc. cbn [app].
  destruct (written_head _ Ht) as (c & w & Ew & H1 & H2 & H3 & _).
  assert (Hb : forall t, blanks (32%N :: written_key k ++ t) = 1 /\ after_blanks (32%N :: written_key k ++ t) = written_key k ++ t).
  { intro t. rewrite Ew. unfold blanks, after_blanks. cbn [app takewhile dropwhile is_space]. rewrite H1. auto. }
  destruct (key_read skey_first skey_char section_tail inp (i + S d + 1) k [] nl r (None, i + length line)) as (ks & E & Hk); auto.
  - unfold section_tail. cbn [app]. destruct (vis_spaces nl r eq_refl) as [-> ->]. cbn [N.eqb].
    change (N.eqb nl nl) with true. cbv iota. do 2 f_equal.
    unfold line. rewrite app_length, repeat_length. cbn [length]. lia.
  - exists ks. split; [|assumption]. unfold scan. cbn [repeat app].
    destruct (vis_spaces 35 (repeat 35%N d ++ 32%N :: written_key k ++ nl :: r) eq_refl) as [-> ->]. rewrite Nat.add_0_r.
    change (N.eqb 35 nl) with false. change (N.eqb 35 c_pipe) with false. change (N.eqb 35 c_bslash) with false.
    change (N.eqb 35 c_gt) with false. change (N.eqb 35 c_dash) with false. change (N.eqb 35 c_hash) with true. cbv iota.
    rewrite app_comm_cons. change (35%N :: repeat 35%N d) with (repeat c_hash (S d)).
    rewrite take_run, drop_run by discriminate. rewrite repeat_length. destruct (Hb (nl :: r)) as [-> ->].
    cbn [app] in E. rewrite E. reflexivity.
Qed.

Lemma scan_block i n k r : 2 <= n -> trimmed k ->
  let line := repeat 45%N n ++ 32%N :: k in
  scan i (line ++ nl :: r) = Some (TMultiline (i, i + n) (i + n + 1, i + n + 1 + length k), i + length line).
Proof.
  intros Hn Ht line. unfold line. rewrite <- app_assoc. cbn [app]. unfold scan.
  assert (repeat 45%N n ++ 32%N :: k ++ nl :: r = 45%N :: repeat 45%N (n - 1) ++ 32%N :: k ++ nl :: r) as Er.
  { destruct n; [lia|]. cbn [repeat app]. now rewrite Nat.sub_succ, Nat.sub_0_r. }
  assert (Hs : spaces (repeat 45%N n ++ 32%N :: k ++ nl :: r) = 0 /\ after_spaces (repeat 45%N n ++ 32%N :: k ++ nl :: r) = repeat 45%N n ++ 32%N :: k ++ nl :: r).
  { rewrite Er. now apply vis_spaces. }
  destruct Hs as [-> ->]. rewrite Nat.add_0_r.
  rewrite Er at 1. cbv beta iota.
  change (N.eqb 45 nl) with false. change (N.eqb 45 c_pipe) with false. change (N.eqb 45 c_bslash) with false.
  change (N.eqb 45 c_gt) with false. change (N.eqb 45 c_dash) with true. cbv iota.
  change 45%N with c_dash. rewrite take_run, drop_run by discriminate. rewrite repeat_length.
  destruct (Nat.eqb_spec n 1); [lia|]. rewrite opt_value_sp by assumption.
  replace (repeat c_dash n ++ 32%N :: k ++ nl :: r) with ((repeat c_dash n ++ 32%N :: k) ++ nl :: r) by now rewrite <- app_assoc.
  rewrite eol_nl; [reflexivity|]. rewrite forallb_app. cbn [forallb]. change (not_nl 32) with true. rewrite (trimmed_no_nl k Ht).
  rewrite andb_true_iff. split; [|reflexivity]. clear. induction n; auto.
Qed.

Lemma closing_here i n k r : trimmed k -> let line := repeat 45%N n ++ 32%N :: k in
  closing_line (repeat 45%N n) k i (line ++ nl :: r) = Some ((i, i + n), (i + n + 1, i + n + 1 + length k), i + length line) \/ n = 0.
Proof.
  intros Ht line. destruct n as [|n0]; [now right|left]. set (n := S n0) in *. unfold line. rewrite <- app_assoc. cbn [app].
  unfold closing_line.
  assert (Hs : spaces (repeat 45%N n ++ 32%N :: k ++ nl :: r) = 0 /\ after_spaces (repeat 45%N n ++ 32%N :: k ++ nl :: r) = repeat 45%N n ++ 32%N :: k ++ nl :: r).
  { unfold n. cbn [repeat app]. now apply vis_spaces. }
  destruct Hs as [-> ->]. rewrite Nat.add_0_r, strip_self, repeat_length. change (N.eqb 32 c_dash) with false. cbv iota.
  destruct (trimmed_cons _ Ht) as (c & w & E & Hc & _).
  assert (Ha : forall t, after_spaces (32%N :: k ++ t) = k ++ t).
  { intro t. unfold after_spaces. rewrite E. cbn [app dropwhile]. rewrite Hc. reflexivity. }
  assert (Hs : forall t, spaces (32%N :: k ++ t) = 1).
  { intro t. unfold spaces. rewrite E. cbn [app takewhile]. rewrite Hc. reflexivity. }
  rewrite Ha, Hs, strip_self. cbn [line_of takewhile]. change (not_nl nl) with false. cbn [forallb].
  unfold eol. cbn [line_of takewhile]. change (not_nl nl) with false. cbn [length]. do 2 f_equal.
  unfold line. rewrite app_length, repeat_length. cbn [length]. lia.
Qed.

Lemma closing_not n k i w r : occurrences 45 w < n -> closing_line (repeat 45%N n) k i (w ++ nl :: r) = None.
Proof.
  intro Hn. unfold closing_line. destruct (after_spaces_suffix w nl r eq_refl) as (a & b & -> & ->).
  rewrite run_none; [reflexivity|discriminate|]. rewrite occurrences_app in Hn. lia.
Qed.
Lemma find_far n k i w r e x : occurrences 45 w < n -> 
  find_closing (repeat 45%N n) k (i + length w) (nl :: r) = Some (e, x) ->
  find_closing (repeat 45%N n) k i (w ++ nl :: r) = Some (e, x).
Proof.
  revert i. induction w as [|y w IH]; intros i Hn H.
  - cbn [app length] in *. now rewrite Nat.add_0_r in H.
  - cbn [app]. cbn [find_closing]. assert (occurrences 45 w < n) as Hw.
    { unfold occurrences in *. cbn [filter] in Hn. destruct (N.eqb 45 y); cbn [length] in Hn; lia. }
    rewrite closing_not by assumption. destruct (N.eqb y nl); apply IH; auto; rewrite <- H; f_equal; cbn [length]; lia.
Qed.

Lemma find_here n k i r : 0 < n -> trimmed k -> let line := repeat 45%N n ++ 32%N :: k in
  find_closing (repeat 45%N n) k i (nl :: line ++ nl :: r) =
    Some (i, ((S i, S i + n), (S i + n + 1, S i + n + 1 + length k), S i + length line)).
Proof.
  intros Hn Ht line. cbn [find_closing]. change (N.eqb nl nl) with true. cbv iota.
  destruct (closing_here (S i) n k r Ht) as [E|]; [fold line in E; now rewrite E|lia].
Qed.

(** the block is closed by the line behind it *)
Lemma find_block n k i v r : trimmed k -> occurrences 45 v < n -> let line := repeat 45%N n ++ 32%N :: k in
  let e := S i + length v in
  find_closing (repeat 45%N n) k i (nl :: v ++ nl :: line ++ nl :: r) =
    Some (e, ((S e, S e + n), (S e + n + 1, S e + n + 1 + length k), S e + length line)).
Proof.
  intros Ht Hn line e. cbn [find_closing]. change (N.eqb nl nl) with true. cbv iota. rewrite closing_not by assumption.
  apply find_far; [assumption|]. fold e. unfold line. apply find_here; [lia|assumption].
Qed.

(** comments *)
Lemma scan_comment i j u r : trimmed u ->
  let line := U "> " ++ repeat 32%N j ++ u in
  scan i (line ++ nl :: r) = Some (TComment (i, i + 1) (Some (i + 1 + S j, i + 1 + S j + length u)), i + length line).
Proof.
  intros Hu line. unfold line. change (U "> ") with [62%N; 32%N]. rewrite <- !app_assoc. cbn [app]. unfold scan.
  destruct (vis_spaces 62 (32%N :: repeat 32%N j ++ u ++ nl :: r) eq_refl) as [-> ->]. rewrite Nat.add_0_r.
  change (N.eqb 62 nl) with false. change (N.eqb 62 c_pipe) with false. change (N.eqb 62 c_bslash) with false.
  change (N.eqb 62 c_gt) with true. cbv iota.
  change (32%N :: repeat 32%N j ++ u ++ nl :: r) with (repeat 32%N (S j) ++ u ++ nl :: r).
  rewrite opt_value_some by assumption.
  replace (62%N :: repeat 32%N (S j) ++ u ++ nl :: r) with ((62%N :: repeat 32%N (S j) ++ u) ++ nl :: r) by (cbn [app]; now rewrite <- app_assoc).
  rewrite eol_nl; [reflexivity|]. cbn [forallb]. rewrite forallb_app, (trimmed_no_nl u Hu).
  cbn. rewrite andb_true_r. clear. induction j; auto.
Qed.
Lemma scan_comment_empty i r : scan i (U ">" ++ nl :: r) = Some (TComment (i, i + 1) None, i + 1).
Proof. unfold scan. cbn. now rewrite Nat.add_0_r. Qed.
