(** ScanFacts: what every token of [Scan] satisfies (extents, order, trimmed content). *)
From Verif Require Import Base Regex Grammar Scan ScanProofs Types TokenStep.

(** A trimmed, non-empty, single-line text. *)
Definition clean (t : text) : Prop :=
  t <> [] /\ is_space (hd nl t) = false /\ is_space (last t nl) = false /\ ~ In nl t.

Definition at_pos (inp : text) (i : nat) (r : text) : Prop := skipn i inp = r /\ i <= length inp.

Lemma at_pos_app inp i a b :
  at_pos inp i (a ++ b) -> at_pos inp (i + length a) b /\ sub inp (i, i + length a) = a.
Proof.
  intros [H Hl]. split; [split|].
  - rewrite skipn_plus, H, skipn_app, skipn_all, Nat.sub_diag. reflexivity.
  - apply (f_equal (@length _)) in H. rewrite skipn_length, app_length in H. lia.
  - unfold sub, slice. cbn [fst snd]. replace (i + length a - i) with (length a) by lia.
    rewrite H, firstn_app, Nat.sub_diag, firstn_all, firstn_O. apply app_nil_r.
Qed.
Lemma at_pos_cons inp i c b :
  at_pos inp i (c :: b) -> at_pos inp (S i) b /\ sub inp (i, S i) = [c].
Proof.
  intro H. apply (at_pos_app inp i [c] b) in H. cbn [length] in H. now rewrite Nat.add_1_r in H.
Qed.
Lemma at_pos_len inp i r : at_pos inp i r -> length inp = i + length r.
Proof. intros [H Hl]. apply (f_equal (@length _)) in H. rewrite skipn_length in H. lia. Qed.

Lemma strip_prefix_app p l r : strip_prefix p l = Some r <-> l = p ++ r.
Proof.
  revert l. induction p as [|x p IH]; intros l; cbn [strip_prefix app]; [split; congruence|].
  destruct l as [|y l]; [split; discriminate|]. destruct (N.eqb_spec x y) as [->|Hne].
  - rewrite IH. split; congruence.
  - split; [discriminate|congruence].
Qed.

Definition span_in (lo hi : nat) (s : span) : Prop := lo <= fst s /\ fst s < snd s /\ snd s <= hi.
Definition value_ok (inp : text) (lo hi : nat) (v : option span) : Prop :=
  match v with Some s => span_in lo hi s /\ clean (sub inp s) | None => True end.

Lemma not_nl_in t : forallb not_nl t = true <-> ~ In nl t.
Proof.
  rewrite forallb_forall. split.
  - intros H Hin. apply H in Hin. discriminate.
  - intros H x Hx. unfold not_nl. destruct (N.eqb_spec x nl) as [->|]; [contradiction|reflexivity].
Qed.

Lemma last_app_cons {A} (a : list A) c d : last (a ++ [c]) d = c.
Proof. induction a as [|x a IH]; [reflexivity|]. cbn. destruct (a ++ [c]) eqn:E; [destruct a; discriminate|exact IH]. Qed.

Lemma last_in {A} (l : list A) d : l <> [] -> In (last l d) l.
Proof.
  induction l as [|x l IH]; [congruence|]. intros _. destruct l as [|y l]; [now left|].
  right. apply IH. discriminate.
Qed.

(** A trimmed text whose head is visible is clean. *)
Lemma clean_rtrim c l : hspace c = false -> forallb not_nl (c :: l) = true -> clean (rtrim (c :: l)).
Proof.
  intros Hc Hn. destruct (rtrim_cons c l Hc) as (v & Ev).
  destruct (rtrim_decomp (c :: l)) as (t & Et & Ht). rewrite Ev in *.
  assert (~ In nl (c :: v)) as Hno.
  { rewrite not_nl_in in Hn. rewrite Et in Hn. intro H. apply Hn, in_or_app. now left. }
  assert (forall x, In x (c :: v) -> hspace x = false -> is_space x = false) as Hsp.
  { intros x Hx Hh. rewrite is_space_split, Hh. cbn. destruct (N.eqb_spec x nl) as [->|]; [contradiction|reflexivity]. }
  repeat split.
  - discriminate.
  - cbn [hd]. apply Hsp; [now left|assumption].
  - apply Hsp; [apply last_in; discriminate|].
    assert (exists a d, c :: v = a ++ [d]) as (a & d & E).
    { destruct (exists_last (l := c :: v)) as (a & d & E); [discriminate|]. eauto. }
    rewrite E, last_app_cons. assert (forallb hspace [d] = false) as H.
    { apply (rtrim_suffix (c :: l) a); [congruence|discriminate]. }
    simpl in H. now rewrite andb_true_r in H.
  - exact Hno.
Qed.

Lemma eol_le inp i r : at_pos inp i r -> eol i r <= length inp /\ i <= eol i r /\ at_eol (skipn (eol i r) inp).
Proof.
  intro H. destruct (line_split r) as (after & E & Ha). unfold eol.
  rewrite E in H at 1. apply at_pos_app in H as [[H Hl] _]. repeat split; [assumption|lia|now rewrite H].
Qed.

Lemma opt_value_ok inp i r : at_pos inp i r -> value_ok inp i (eol i r) (opt_value i r).
Proof.
  intro H. unfold opt_value. rewrite (eol_spaces i r).
  rewrite (split_spaces r) in H. apply at_pos_app in H as [H _]. fold (spaces r) in H.
  pose proof (after_spaces_head r) as Hh. assert (i <= i + spaces r) as Hle by lia. revert H Hh Hle.
  generalize (i + spaces r) as p, (after_spaces r) as r1. clear r. intros p r1 H Hh Hle.
  destruct r1 as [|c r1]; [exact I|].
  destruct (N.eqb_spec c nl) as [->|Hc]; [exact I|].
  assert (not_nl c = true) as Hn by (unfold not_nl; apply negb_true_iff; now apply N.eqb_neq).
  pose proof (line_of_no_nl (c :: r1)) as Hno. unfold eol.
  destruct (line_split (c :: r1)) as (after & E & _). rewrite E in H. clear E.
  rewrite (line_of_cons c r1 Hn) in *.
  pose proof (clean_rtrim c (line_of r1) Hh Hno) as Hcl.
  destruct (rtrim_cons c (line_of r1) Hh) as (v & Ev). rewrite Ev in *.
  destruct (rtrim_decomp (c :: line_of r1)) as (t & Et & Ht). rewrite Ev in Et.
  rewrite Et, <- app_assoc in H. rewrite Et. apply at_pos_app in H as [_ H].
  split.
  - unfold span_in. cbn [fst snd]. rewrite app_length. cbn [length]. lia.
  - rewrite H. exact Hcl.
Qed.

Definition key_hi (k : kspan) : nat := match k with Plain s => snd s | Escaped _ _ x => snd x end.
Definition key_ok (inp : text) (lo : nat) (k : kspan) : Prop :=
  match k with
  | Plain s => span_in lo (snd s) s /\ clean (sub inp s)
  | Escaped b s x =>
      span_in lo (fst s) b /\ span_in (snd b) (fst x) s /\ span_in (snd s) (snd x) x /\
      clean (sub inp s) /\ sub inp b = repeat c_tick (snd b - fst b) /\ sub inp x = sub inp b
  end.

Definition op_ok (inp : text) (lo hi : nat) (c : char) (op : span) : Prop :=
  span_in lo hi op /\ sub inp op = repeat c (snd op - fst op).
Definition width (s : span) : nat := snd s - fst s.

Definition tok_ok (inp : text) (i e : nat) (t : token) : Prop :=
  match t with
  | TEmpty p => i <= p /\ p = e /\ forallb hspace (slice inp i e) = true
  | TDirect op v => op_ok inp i e c_pipe op /\ width op = 1 /\ value_ok inp (snd op) e v
  | TSpaced op v => op_ok inp i e c_bslash op /\ width op = 1 /\ value_ok inp (snd op) e v
  | TComment op v => op_ok inp i e c_gt op /\ width op = 1 /\ value_ok inp (snd op) e v
  | TItem op v => op_ok inp i e c_dash op /\ width op = 1 /\ value_ok inp (snd op) e v
  | TMultiline op k => op_ok inp i e c_dash op /\ 2 <= width op /\ value_ok inp (snd op) e (Some k)
  | TSection op k t =>
      op_ok inp i e c_hash op /\ key_ok inp (snd op) k /\ key_hi k <= e /\
      match t with
      | Some (o, s) => op_ok inp (key_hi k) e c_lt o /\ (width o = 1 \/ width o = 2) /\
                       value_ok inp (snd o) e (Some s)
      | None => True
      end
  | TField k op v => key_ok inp i k /\ op_ok inp (key_hi k) e c_colon op /\ width op = 1 /\ value_ok inp (snd op) e v
  | TEntry k op v => key_ok inp i k /\ op_ok inp (key_hi k) e c_eq op /\ width op = 1 /\ value_ok inp (snd op) e v
  | TCopy k op t => key_ok inp i k /\ op_ok inp (key_hi k) e c_lt op /\ width op = 1 /\ value_ok inp (snd op) e (Some t)
  end.

(** position [e] is the end of a line *)
Definition line_end (inp : text) (e : nat) : Prop := e <= length inp /\ at_eol (skipn e inp).

Lemma value_ok_weaken inp lo lo' hi hi' v : lo' <= lo -> hi <= hi' -> value_ok inp lo hi v -> value_ok inp lo' hi' v.
Proof. destruct v as [s|]; [|easy]. unfold value_ok, span_in. intuition lia. Qed.

Lemma op1_ok inp lo hi i c r : at_pos inp i (c :: r) -> lo <= i -> S i <= hi -> op_ok inp lo hi c (i, S i) /\ width (i, S i) = 1.
Proof.
  intros H Hlo Hhi. apply at_pos_cons in H as [_ H]. unfold op_ok, span_in, width. cbn [fst snd].
  rewrite H. replace (S i - i) with 1 by lia. repeat split; try lia; reflexivity.
Qed.

Lemma repeat_takewhile c l : takewhile (fun x => N.eqb x c) l = repeat c (length (takewhile (fun x => N.eqb x c) l)).
Proof.
  induction l as [|x l IH]; [reflexivity|]. cbn [takewhile]. destruct (N.eqb_spec x c) as [->|]; [|reflexivity].
  cbn [length repeat]. f_equal. exact IH.
Qed.

Lemma takewhile_op inp i c r : at_pos inp i (c :: r) ->
  let n := length (takewhile (fun x => N.eqb x c) (c :: r)) in
  at_pos inp (i + n) (dropwhile (fun x => N.eqb x c) (c :: r)) /\
  sub inp (i, i + n) = repeat c n /\ 1 <= n.
Proof.
  intros H n. rewrite <- (take_drop_while (fun x => N.eqb x c) (c :: r)) in H.
  apply at_pos_app in H as [H1 H2]. fold n in H1, H2. repeat split; [apply H1|apply H1| |].
  - rewrite H2. apply repeat_takewhile.
  - unfold n. cbn [takewhile]. rewrite N.eqb_refl. cbn [length]. lia.
Qed.

(** * Tails *)

Lemma at_pos_spaces inp i r : at_pos inp i r -> at_pos inp (i + spaces r) (after_spaces r).
Proof. intro H. rewrite (split_spaces r) in H. now apply at_pos_app in H as [H _]. Qed.
Lemma at_pos_blanks inp i r : at_pos inp i r -> at_pos inp (i + blanks r) (after_blanks r).
Proof.
  intro H. unfold blanks, after_blanks. rewrite <- (take_drop_while is_space r) in H.
  now apply at_pos_app in H as [H _].
Qed.

Definition stail_ok (inp : text) (lo : nat) (x : option (span * span) * nat) : Prop :=
  let '(t, e) := x in
  lo <= e /\ line_end inp e /\
  match t with
  | Some (o, s) => op_ok inp lo e c_lt o /\ (width o = 1 \/ width o = 2) /\ value_ok inp (snd o) e (Some s)
  | None => True
  end.

Lemma section_tail_ok inp i r x : at_pos inp i r -> section_tail i r = Some x -> stail_ok inp i x.
Proof.
  intro H. apply at_pos_spaces in H. unfold section_tail. cbn zeta.
  assert (i <= i + spaces r) as Hle by lia. revert H Hle.
  generalize (i + spaces r) as p, (after_spaces r) as r1. clear r. intros p r1 H Hle.
  destruct r1 as [|c r1].
  { intros [= <-]. destruct H as [H Hl]. repeat split; try assumption. left. exact H. }
  destruct (N.eqb_spec c nl) as [->|Hc].
  { intros [= <-]. destruct H as [H Hl]. repeat split; try assumption. right. eauto. }
  destruct (N.eqb_spec c c_lt) as [->|Hlt]; [|discriminate].
  assert (exists n r2, (n = 1 \/ n = 2) /\
     match r1 with d :: r2 => if N.eqb d c_lt then (2, r2) else (1, r1) | [] => (1, r1) end = (n, r2) /\
     at_pos inp (p + n) r2 /\ sub inp (p, p + n) = repeat c_lt n) as (n & r2 & Hn & -> & H2 & Hs).
  { destruct r1 as [|d r2].
    - exists 1, []. apply at_pos_cons in H as [H H']. rewrite Nat.add_1_r. auto.
    - destruct (N.eqb_spec d c_lt) as [->|].
      + exists 2, r2. apply (at_pos_app inp p [c_lt; c_lt] r2) in H as [H H']. auto.
      + exists 1, (d :: r2). apply at_pos_cons in H as [H H']. rewrite Nat.add_1_r. auto. }
  pose proof (opt_value_ok inp (p + n) r2 H2) as Hv. pose proof (eol_le inp (p + n) r2 H2) as (Hl1 & Hl2 & Hl3).
  destruct (opt_value (p + n) r2) as [t|]; [|discriminate]. intros [= <-].
  unfold stail_ok, op_ok, span_in, width, line_end. cbn [fst snd].
  replace (p + n - p) with n by lia. repeat split; try assumption; try lia; try apply Hv.
Qed.

Definition ltail_ok (inp : text) (lo : nat) (x : ltail * nat) : Prop :=
  let '(t, e) := x in
  lo <= e /\ line_end inp e /\
  match t with
  | LField op v => op_ok inp lo e c_colon op /\ width op = 1 /\ value_ok inp (snd op) e v
  | LEntry op v => op_ok inp lo e c_eq op /\ width op = 1 /\ value_ok inp (snd op) e v
  | LCopy op t => op_ok inp lo e c_lt op /\ width op = 1 /\ value_ok inp (snd op) e (Some t)
  end.

Lemma late_tail_ok inp i r x : at_pos inp i r -> late_tail i r = Some x -> ltail_ok inp i x.
Proof.
  intro H. apply at_pos_blanks in H. unfold late_tail. cbn zeta.
  assert (i <= i + blanks r) as Hle by lia. revert H Hle.
  generalize (i + blanks r) as p, (after_blanks r) as r1. clear r. intros p r1 H Hle.
  destruct r1 as [|c r1]; [discriminate|]. rewrite !Nat.add_1_r.
  pose proof (at_pos_cons _ _ _ _ H) as [H1 _].
  pose proof (opt_value_ok inp (S p) r1 H1) as Hv. pose proof (eol_le inp (S p) r1 H1) as (Hl1 & Hl2 & Hl3).
  destruct (N.eqb_spec c c_colon) as [->|Hcol].
  { intros [= <-]. unfold ltail_ok. pose proof (op1_ok inp i (eol (S p) r1) p _ _ H Hle Hl2) as [Ho Hw].
    repeat split; try assumption; try lia; apply Ho. }
  destruct (N.eqb_spec c c_eq) as [->|Heq].
  { intros [= <-]. unfold ltail_ok. pose proof (op1_ok inp i (eol (S p) r1) p _ _ H Hle Hl2) as [Ho Hw].
    repeat split; try assumption; try lia; apply Ho. }
  destruct (N.eqb_spec c c_lt) as [->|]; [|discriminate].
  clear Hv Hl1 Hl2 Hl3. apply at_pos_blanks in H1.
  pose proof (opt_value_ok inp _ _ H1) as Hv. pose proof (eol_le inp _ _ H1) as (Hl1 & Hl2 & Hl3).
  destruct (opt_value _ _) as [t|]; [|discriminate]. intros [= <-].
  set (e := eol _ _) in *.
  pose proof (op1_ok inp i e p _ _ H Hle) as Ho. destruct Ho as [Ho Hw]; [lia|].
  unfold ltail_ok. repeat split; try assumption; try lia; try apply Ho; cbn [fst snd];
    destruct Hv as [(? & ? & ?) Hc]; try lia; apply Hc.
Qed.

(** * Keys *)

Lemma close_key_ok {A} (tail : nat -> text -> option A) (tok : nat -> A -> Prop) inp ticks pre p j r ke tb x :
  (forall i r x, at_pos inp i r -> tail i r = Some x -> tok i x) ->
  ticks <> [] ->
  p + length pre = j -> pre <> [] -> ~ In nl pre -> is_space (hd nl pre) = false ->
  (is_space (last pre nl) = false \/
     forall q, match strip_prefix ticks (after_spaces r) with
               | Some r2 => tail (j + spaces r + length ticks) r2 | None => None end <> Some q) ->
  at_pos inp p (pre ++ r) ->
  close_key tail ticks j r = Some (ke, tb, x) ->
  span_in p tb (p, ke) /\ clean (sub inp (p, ke)) /\ sub inp (tb, tb + length ticks) = ticks /\
  ke <= tb /\ tok (tb + length ticks) x.
Proof.
  intros Htail Hti. revert pre j. induction r as [|c r IH]; intros pre j Hj Hne Hnl Hhd Hlast Hpos; cbn [close_key].
  - destruct (match strip_prefix ticks (after_spaces []) with Some r2 => _ | None => None end) as [y|] eqn:E; [|discriminate].
    intros [= <- <- ->]. destruct (strip_prefix ticks (after_spaces [])) as [r2|] eqn:E2; [|discriminate].
    apply strip_prefix_app in E2. unfold after_spaces in E2. simpl in E2. destruct ticks; [congruence|discriminate].
  - destruct (match strip_prefix ticks (after_spaces (c :: r)) with Some r2 => _ | None => None end) as [y|] eqn:E.
    + intros [= <- <- ->]. destruct Hlast as [Hlast|Hlast]; [|now elim (Hlast x)].
      destruct (strip_prefix ticks (after_spaces (c :: r))) as [r2|] eqn:E2; [|discriminate].
      apply strip_prefix_app in E2.
      pose proof Hpos as Hp2. apply at_pos_app in Hp2 as [Hp2 Hs]. rewrite Hj in Hp2, Hs.
      apply at_pos_spaces in Hp2. rewrite E2 in Hp2. apply at_pos_app in Hp2 as [Hp3 Hs3].
      repeat split; cbn [fst snd].
      * lia.
      * destruct pre; [congruence|]. simpl in Hj. lia.
      * lia.
      * rewrite Hs. assumption.
      * rewrite Hs. assumption.
      * rewrite Hs. assumption.
      * rewrite Hs. assumption.
      * exact Hs3.
      * lia.
      * now apply (Htail _ r2).
    + destruct (not_nl c) eqn:Hc; [|discriminate]. intro H.
      apply (IH (pre ++ [c]) (S j)); [..|exact H].
      * rewrite app_length. simpl. lia.
      * destruct pre; discriminate.
      * intro Hin. apply in_app_or in Hin as [Hin|[->|[]]]; [contradiction|discriminate].
      * destruct pre; [congruence|exact Hhd].
      * rewrite last_app_cons. destruct (is_space c) eqn:Hs; [right|now left].
        assert (hspace c = true) as Hh by (unfold hspace, not_nl in *; now rewrite Hs, Hc).
        assert (after_spaces (c :: r) = after_spaces r /\ spaces (c :: r) = S (spaces r)) as [E1 E2].
        { unfold after_spaces, spaces. cbn. now rewrite Hh. }
        rewrite E1, E2, Nat.add_succ_r in E. cbn [Nat.add] in E |- *.
        intros q Hq. rewrite Hq in E. discriminate.
      * rewrite <- app_assoc. exact Hpos.
Qed.

Lemma scan_key_ok {A} first char_ok (tail : nat -> text -> option A) (tok : nat -> A -> Prop) inp i r k x :
  (forall c, char_ok c = true -> not_nl c = true) ->
  (forall c, first c = true -> is_space c = false) ->
  (forall i r x, at_pos inp i r -> tail i r = Some x -> tok i x) ->
  at_pos inp i r -> scan_key first char_ok tail i r = Some (k, x) ->
  key_ok inp i k /\ tok (key_hi k) x.
Proof.
  intros Hchar Hfirst Htail Hpos. unfold scan_key. destruct r as [|c r]; [discriminate|].
  destruct (first c) eqn:Ef.
  - destruct (tail _ _) as [y|] eqn:E; [|discriminate]. intros [= <- <-]. cbn [key_ok key_hi].
    pose proof (Hfirst c Ef) as Hsp.
    assert (hspace c = false) as Hh by (unfold hspace; now rewrite Hsp).
    assert (not_nl c = true) as Hn by (unfold not_nl; destruct (N.eqb_spec c nl) as [->|]; [discriminate|reflexivity]).
    assert (clean (rtrim (c :: takewhile char_ok r))) as Hcl.
    { apply clean_rtrim; [assumption|]. cbn [forallb]. rewrite Hn. cbn.
      eapply forallb_impl; [exact Hchar|apply takewhile_forallb]. }
    set (v := rtrim _) in *. 
    assert (exists t, c :: r = v ++ t) as (t & Et).
    { destruct (rtrim_decomp (c :: takewhile char_ok r)) as (t & Et & _).
      exists (t ++ dropwhile char_ok r). unfold v. rewrite app_assoc, <- Et. cbn [app].
      now rewrite take_drop_while. }
    rewrite Et in Hpos, E. rewrite skipn_app, skipn_all, Nat.sub_diag in E. cbn [skipn app] in E.
    apply at_pos_app in Hpos as [Hp Hs].
    assert (v <> []) by apply Hcl. destruct v as [|v0 v]; [congruence|].
    repeat split; cbn [fst snd]; try lia; try (rewrite Hs; apply Hcl).
    + cbn [length]. lia.
    + now apply (Htail _ t).
  - destruct (N.eqb_spec c c_tick) as [->|]; [|discriminate]. cbn zeta.
    pose proof (takewhile_op inp i c_tick r Hpos) as (Hp1 & Hs1 & Hn1).
    set (n := length (takewhile (fun x => N.eqb x c_tick) (c_tick :: r))) in *.
    set (ticks := takewhile (fun x => N.eqb x c_tick) (c_tick :: r)) in *.
    assert (ticks = repeat c_tick n) as Htk by apply repeat_takewhile.
    apply at_pos_spaces in Hp1. set (r1 := dropwhile _ _) in *.
    pose proof (after_spaces_head r1) as Hh.
    destruct (after_spaces r1) as [|d r2]; [discriminate|].
    destruct (N.eqb_spec d nl) as [->|Hd]; [discriminate|].
    destruct (close_key _ _ _ _) as [[[ke tb] y]|] eqn:E; [|discriminate]. intros [= <- <-].
    set (p := i + n + spaces r1) in *.
    assert (is_space d = false) as Hds.
    { rewrite is_space_split, Hh. now apply N.eqb_neq. }
    eapply (close_key_ok tail tok inp ticks [d] p) in E as (H1 & H2 & H3 & H4 & H5).
    + cbn [key_ok key_hi fst snd]. unfold span_in in *. cbn [fst snd] in *.
      replace (i + n - i) with n by lia. change (length ticks) with n in H3, H5. rewrite H3, Hs1.
      unfold span_in. cbn [fst snd]. repeat split; try apply H2; try assumption; try (unfold p; lia); try lia.
    + exact Htail.
    + rewrite Htk. destruct n; [lia|discriminate].
    + cbn [length]. lia.
    + discriminate.
    + intros [->|[]]; congruence.
    + exact Hds.
    + left. exact Hds.
    + exact Hp1.
Qed.

Lemma key_first_space c : key_first c = true -> is_space c = false.
Proof. unfold key_first. destruct (is_space c); [discriminate|reflexivity]. Qed.
Lemma skey_first_space c : skey_first c = true -> is_space c = false.
Proof. unfold skey_first. destruct (is_space c); [discriminate|reflexivity]. Qed.

Lemma op_ok_weaken inp lo lo' hi hi' c op : lo' <= lo -> hi <= hi' -> op_ok inp lo hi c op -> op_ok inp lo' hi' c op.
Proof. unfold op_ok, span_in. intuition lia. Qed.

Lemma key_ok_weaken inp lo lo' k : lo' <= lo -> key_ok inp lo k -> key_ok inp lo' k.
Proof. destruct k; unfold key_ok, span_in; intuition lia. Qed.

Theorem scan_ok inp i t e :
  i <= length inp -> scan i (skipn i inp) = Some (t, e) ->
  i <= e /\ line_end inp e /\ tok_ok inp i e t.
Proof.
  intro Hi. assert (at_pos inp i (skipn i inp)) as Hpos by (split; auto).
  revert Hpos. generalize (skipn i inp) as r0. intros r0 Hpos.
  unfold scan. cbn zeta.
  pose proof (split_spaces r0) as Hsplit.
  assert (sub inp (i, i + spaces r0) = takewhile hspace r0) as Hsub.
  { rewrite Hsplit in Hpos. now apply at_pos_app in Hpos as [_ H]. }
  apply at_pos_spaces in Hpos.
  pose proof (after_spaces_head r0) as Hh.
  assert (i <= i + spaces r0) as Hle by lia.
  assert (forallb hspace (sub inp (i, i + spaces r0)) = true) as Hsp
    by (rewrite Hsub; apply takewhile_forallb).
  clear Hsplit Hsub. revert Hpos Hh Hle Hsp. generalize (i + spaces r0) as p, (after_spaces r0) as r.
  clear r0. intros p r Hpos Hh Hle Hsp.
  destruct r as [|c r1].
  { intros [= <- <-]. destruct Hpos as [H Hl]. repeat split; auto. now left. }
  destruct (N.eqb_spec c nl) as [->|Hnl].
  { intros [= <- <-]. destruct Hpos as [H Hl]. repeat split; auto. right. eauto. }
  assert (not_nl c = true) as Hnn by (unfold not_nl; apply negb_true_iff; now apply N.eqb_neq).
  pose proof (at_pos_cons _ _ _ _ Hpos) as [Hpos1 Hsub1].
  pose proof (opt_value_ok inp (S p) r1 Hpos1) as Hv.
  pose proof (eol_le inp (S p) r1 Hpos1) as (Hl1 & Hl2 & Hl3).
  rewrite (eol_cons p c r1 Hnn) in Hv, Hl1, Hl2, Hl3. rewrite Nat.add_1_r.
  pose proof (op1_ok inp i (eol p (c :: r1)) p c r1 Hpos Hle Hl2) as [Hop Hw].
  destruct (N.eqb_spec c c_pipe) as [->|Hpipe].
  { intros [= <- <-]. split; [lia|]. split; [split; assumption|]. repeat split; try assumption; apply Hop. }
  destruct (N.eqb_spec c c_bslash) as [->|Hbs].
  { intros [= <- <-]. split; [lia|]. split; [split; assumption|]. repeat split; try assumption; apply Hop. }
  destruct (N.eqb_spec c c_gt) as [->|Hgt].
  { intros [= <- <-]. split; [lia|]. split; [split; assumption|]. repeat split; try assumption; apply Hop. }
  destruct (N.eqb_spec c c_dash) as [->|Hdash].
  { destruct (Nat.eqb_spec (length (takewhile (fun x => N.eqb x c_dash) (c_dash :: r1))) 1) as [En|En].
    - intros [= <- <-]. split; [lia|]. split; [split; assumption|]. repeat split; try assumption; apply Hop.
    - pose proof (takewhile_op inp p c_dash r1 Hpos) as (Hp2 & Hs2 & Hn2).
      set (n := length (takewhile _ _)) in *. set (r2 := dropwhile _ _) in *.
      pose proof (opt_value_ok inp (p + n) r2 Hp2) as Hv2.
      assert (eol (p + n) r2 = eol p (c_dash :: r1)) as Ee.
      { unfold eol. rewrite <- (take_drop_while (fun x => N.eqb x c_dash) (c_dash :: r1)).
        rewrite line_of_app.
        - rewrite app_length. unfold n, r2. lia.
        - eapply forallb_impl; [|apply takewhile_forallb]. intros x Hx. apply N.eqb_eq in Hx as ->. reflexivity. }
      rewrite Ee in Hv2.
      destruct (opt_value (p + n) r2) as [k|]; [|discriminate]. intros [= <- <-].
      split; [lia|]. split; [split; assumption|]. cbn [tok_ok]. unfold op_ok, span_in, width. cbn [fst snd].
      replace (p + n - p) with n by lia.
      destruct Hv2 as [(? & ? & ?) Hc]. repeat split; cbn [fst snd]; try assumption; try lia; apply Hc. }
  destruct (N.eqb_spec c c_hash) as [->|Hhash].
  { pose proof (takewhile_op inp p c_hash r1 Hpos) as (Hp2 & Hs2 & Hn2).
    set (n := length (takewhile _ _)) in *. set (r2 := dropwhile _ _) in *.
    apply at_pos_blanks in Hp2.
    destruct (scan_key _ _ _ _ _) as [[k [t' e']]|] eqn:E; [|discriminate]. intros [= <- <-].
    eapply (scan_key_ok _ _ _ (stail_ok inp)) in E as [Hk Ht];
      [|apply skey_char_nl|apply skey_first_space|apply section_tail_ok|exact Hp2].
    destruct Ht as (H1 & H2 & H3).
    assert (p + n + blanks r2 <= key_hi k).
    { destruct k; cbn [key_ok key_hi] in *; unfold span_in in Hk; intuition lia. }
    split; [lia|]. split; [assumption|]. cbn [tok_ok]. unfold op_ok, span_in, width. cbn [fst snd].
    replace (p + n - p) with n by lia.
    split; [repeat split; try assumption; lia|]. split; [eapply key_ok_weaken; [|exact Hk]; lia|]. split; [lia|].
    destruct t' as [[o s]|]; [|exact I]. exact H3. }
  destruct (scan_key _ _ _ _ _) as [[k [x e']]|] eqn:E; [|discriminate].
  eapply (scan_key_ok _ _ _ (ltail_ok inp)) in E as [Hk Ht];
      [|apply key_char_nl|apply key_first_space|apply late_tail_ok|exact Hpos].
  destruct Ht as (H1 & H2 & H3).
  assert (p <= key_hi k).
  { destruct k; cbn [key_ok key_hi] in *; unfold span_in in Hk; intuition lia. }
  destruct x as [o v|o v|o t']; intros [= <- <-]; (split; [lia|]); (split; [assumption|]);
    cbn [tok_ok]; (split; [eapply key_ok_weaken; [|exact Hk]; lia|]); exact H3.
Qed.
