(** ScanLaid: what is recorded of a line makes up the line. *)
From Verif Require Import Base Regex Grammar Scan ScanProofs Types Analyzer TokenStep ScanFacts SpecText SpecLaid.

Section Laid.
  Context (inp : text).
  Local Notation laid := (laid inp).
  Definition gap (i j : nat) : Prop := i <= j /\ forallb is_space (at_range inp (i, j)) = true.

  Lemma gap_app i j e : gap i j -> gap j e -> gap i e.
  Proof.
    intros [H1 H2] [H3 H4]. split; [lia|]. unfold at_range, slice in *. cbn [fst snd] in *.
    assert (skipn j inp = skipn (j - i) (skipn i inp)) as E by (rewrite <- skipn_plus; f_equal; lia). rewrite E in H4. revert H2 H4. generalize (skipn i inp).
    replace (e - i) with ((j - i) + (e - j)) by lia. generalize (j - i) (e - j). clear. intros n m. induction n as [|n IH]; intros [|x l]; cbn; auto.
    intros A B. apply andb_true_iff in A as [A1 A2]. rewrite A1. cbn. now apply IH.
  Qed.
  Lemma gap_nil i : gap i i.
  Proof. split; [lia|]. unfold at_range, slice. cbn [fst snd]. now rewrite Nat.sub_diag. Qed.
  Lemma gap_text i j a : at_range inp (i, j) = a -> i <= j -> forallb is_space a = true -> gap i j.
  Proof. intros <- H H0. split; assumption. Qed.
  Lemma gap_hspace i j a : at_range inp (i, j) = a -> i <= j -> forallb hspace a = true -> gap i j.
  Proof. intros E H H0. apply (gap_text i j a E H). eapply forallb_impl; [|exact H0]. intros x Hx. rewrite is_space_split, Hx. reflexivity. Qed.
  Lemma gap_spaces i r : at_pos inp i r -> gap i (i + spaces r).
  Proof. intro H. rewrite (split_spaces r) in H. apply at_pos_app in H as [_ H]. apply (gap_hspace _ _ _ H); [lia|apply takewhile_forallb]. Qed.
  Lemma gap_blanks i r : at_pos inp i r -> gap i (i + blanks r).
  Proof. intro H. rewrite <- (take_drop_while is_space r) in H. apply at_pos_app in H as [_ H]. apply (gap_text _ _ _ H); [lia|apply takewhile_forallb]. Qed.

  Lemma laid_gap i j l e : gap i j -> laid j l e -> laid i l e.
  Proof.
    intros Hg H. destruct H as [j e H1 H2|j s l e H1 H2 H3 H4].
    - destruct (gap_app i j e Hg (conj H1 H2)) as [G1 G2]. now constructor.
    - destruct (gap_app i j (fst s) Hg (conj H1 H2)) as [G1 G2]. now constructor.
  Qed.
  Lemma laid_app i a j b e : laid i a j -> laid j b e -> laid i (a ++ b) e.
  Proof.
    induction 1 as [i j H1 H2|i s l j H1 H2 H3 H4 IH]; intro H; cbn [app].
    - apply (laid_gap i j); [split; assumption|assumption].
    - constructor; auto.
  Qed.
  Lemma laid_one i s : fst s = i -> fst s <= snd s -> laid i [s] (snd s).
  Proof. intros <- H. constructor; [lia|apply (gap_nil (fst s))|assumption|]. constructor; [lia|apply (gap_nil (snd s))]. Qed.
  Lemma laid_none i j : gap i j -> laid i [] j.
  Proof. intros [H1 H2]. now constructor. Qed.

  Definition ospan (v : option span) : list span := match v with Some s => [s] | None => [] end.
  Lemma value_laid i r : at_pos inp i r -> laid i (ospan (opt_value i r)) (eol i r).
  Proof.
    intro H. apply (laid_gap i (i + spaces r)); [now apply gap_spaces|]. rewrite eol_spaces. unfold opt_value. apply at_pos_spaces in H. pose proof (after_spaces_head r) as Hh. revert H Hh.
    generalize (i + spaces r) as p, (after_spaces r) as r1. clear i r. intros p r H Hh.
    destruct (line_split r) as (after & E & _). rewrite E in H. unfold eol. destruct (rtrim_decomp (line_of r)) as (t & Et & Ht).
    rewrite Et, <- app_assoc in H. apply at_pos_app in H as [H1 H2]. apply at_pos_app in H1 as [_ H3].
    assert (gap (p + length (rtrim (line_of r))) (p + length (line_of r))) as G.
    { apply (gap_hspace _ _ t); [|rewrite Et at 2; rewrite app_length; lia|assumption]. rewrite Et at 2. rewrite app_length, Nat.add_assoc. exact H3. }
    destruct (rtrim (line_of r)) as [|v vs] eqn:Ev; cbn [ospan].
    - apply laid_none. cbn in G. now rewrite Nat.add_0_r in G.
    - apply (laid_app p [_] (p + length (v :: vs)) []); [apply (laid_one p (p, _)); cbn [fst snd]; [reflexivity|lia]|]. now apply laid_none.
  Qed.

  Definition stail_spans (t : option (span * span)) : list span := match t with Some (o, s) => [o; s] | None => [] end.
  Lemma section_tail_laid i r t e : at_pos inp i r -> section_tail i r = Some (t, e) -> laid i (stail_spans t) e.
  Proof.
    intro H. pose proof (gap_spaces i r H) as G. apply at_pos_spaces in H. unfold section_tail. cbn zeta. revert H G.
    generalize (i + spaces r) as p, (after_spaces r) as r1. clear r. intros p r1 H G.
    destruct r1 as [|c r1]; [intros [= <- <-]; now apply laid_none|]. destruct (N.eqb_spec c nl) as [->|Hc]; [intros [= <- <-]; now apply laid_none|].
    destruct (N.eqb_spec c c_lt) as [->|Hlt]; [|discriminate].
    assert (exists n r2, match r1 with d :: r2 => if N.eqb d c_lt then (2, r2) else (1, r1) | [] => (1, r1) end = (n, r2) /\ at_pos inp (p + n) r2) as (n & r2 & -> & H2).
    { destruct r1 as [|d r2].
      - exists 1, []. apply at_pos_cons in H as [H H']. rewrite Nat.add_1_r. auto.
      - destruct (N.eqb_spec d c_lt) as [->|].
        + exists 2, r2. apply (at_pos_app inp p [c_lt; c_lt] r2) in H as [H H']. auto.
        + exists 1, (d :: r2). apply at_pos_cons in H as [H H']. rewrite Nat.add_1_r. auto. }
    pose proof (value_laid (p + n) r2 H2) as V. destruct (opt_value (p + n) r2) as [s|]; [|discriminate]. intros [= <- <-]. cbn [stail_spans ospan] in *.
    apply (laid_gap i p _ _ G). apply (laid_app p [_] (p + n) [s]); [apply (laid_one p (p, p + n)); cbn [fst snd]; [reflexivity|lia]|assumption].
  Qed.

  Definition ltail_spans (t : ltail) : list span := match t with LField o v | LEntry o v => o :: ospan v | LCopy o s => [o; s] end.
  Lemma late_tail_laid i r t e : at_pos inp i r -> late_tail i r = Some (t, e) -> laid i (ltail_spans t) e.
  Proof.
    intro H. pose proof (gap_blanks i r H) as G. apply at_pos_blanks in H. unfold late_tail. cbn zeta. revert H G.
    generalize (i + blanks r) as p, (after_blanks r) as r1. clear r. intros p r1 H G.
    destruct r1 as [|c r1]; [discriminate|]. pose proof (at_pos_cons _ _ _ _ H) as [H1 _]. rewrite <- Nat.add_1_r in H1.
    assert (laid i [(p, p + 1)] (p + 1)) as L by (apply (laid_gap i p _ _ G); apply (laid_one p (p, p + 1)); cbn [fst snd]; [reflexivity|lia]).
    destruct (N.eqb c c_colon); [intros [= <- <-]; exact (laid_app _ _ _ _ _ L (value_laid _ _ H1))|].
    destruct (N.eqb c c_eq); [intros [= <- <-]; exact (laid_app _ _ _ _ _ L (value_laid _ _ H1))|].
    destruct (N.eqb c c_lt); [|discriminate]. pose proof (gap_blanks _ _ H1) as G1. apply at_pos_blanks in H1. pose proof (value_laid _ _ H1) as V.
    destruct (opt_value _ _) as [s|]; [|discriminate]. intros [= <- <-]. apply (laid_app _ [_] _ [s] _ L). exact (laid_gap _ _ _ _ G1 V).
  Qed.

  Lemma close_key_laid {A} (tail : nat -> text -> option A) (tok : nat -> A -> Prop) ticks : (forall i r x, at_pos inp i r -> tail i r = Some x -> tok i x) ->
    forall r j ke tb x, at_pos inp j r -> close_key tail ticks j r = Some (ke, tb, x) -> j <= ke /\ gap ke tb /\ tok (tb + length ticks) x.
  Proof.
    intro Ht. induction r as [|c r IH]; intros j ke tb x Hp; cbn [close_key].
    - destruct (match strip_prefix ticks (after_spaces []) with Some r2 => _ | None => None end) as [y|] eqn:E; [|discriminate].
      intros [= <- <- ->]. destruct (strip_prefix ticks (after_spaces [])) as [r2|] eqn:E2; [|discriminate]. apply strip_prefix_app in E2.
      split; [lia|]. split; [now apply gap_spaces|]. apply at_pos_spaces in Hp. rewrite E2 in Hp. apply at_pos_app in Hp as [Hp _]. now apply (Ht _ r2).
    - destruct (match strip_prefix ticks (after_spaces (c :: r)) with Some r2 => _ | None => None end) as [y|] eqn:E.
      + intros [= <- <- ->]. destruct (strip_prefix ticks (after_spaces (c :: r))) as [r2|] eqn:E2; [|discriminate]. apply strip_prefix_app in E2.
        split; [lia|]. split; [now apply gap_spaces|]. apply at_pos_spaces in Hp. rewrite E2 in Hp. apply at_pos_app in Hp as [Hp _]. now apply (Ht _ r2).
      + destruct (not_nl c); [|discriminate]. intro H. apply at_pos_cons in Hp as [Hp _]. destruct (IH _ _ _ _ Hp H) as (H1 & H2). split; [lia|assumption].
  Qed.

  Definition kspans (k : kspan) : list span := match k with Plain s => [s] | Escaped b s x => [b; s; x] end.
  Lemma scan_key_laid {A} first char_ok (tail : nat -> text -> option A) (tok : nat -> A -> Prop) i r k x :
    (forall i r x, at_pos inp i r -> tail i r = Some x -> tok i x) ->
    at_pos inp i r -> scan_key first char_ok tail i r = Some (k, x) -> laid i (kspans k) (key_hi k) /\ tok (key_hi k) x.
  Proof.
    intros Ht Hp. unfold scan_key. destruct r as [|c r]; [discriminate|]. destruct (first c).
    - destruct (tail _ _) as [y|] eqn:E; [|discriminate]. intros [= <- <-]. cbn [kspans key_hi]. split; [apply laid_one; cbn [fst snd]; [reflexivity|lia]|].
      assert (exists t, c :: r = rtrim (c :: takewhile char_ok r) ++ t) as (t & Et).
      { destruct (rtrim_decomp (c :: takewhile char_ok r)) as (t & Et & _). exists (t ++ dropwhile char_ok r). rewrite app_assoc, <- Et. cbn [app]. now rewrite take_drop_while. }
      cbn [snd]. revert E. set (v := rtrim _) in *. intro E. rewrite Et in Hp, E. rewrite skipn_app, skipn_all, Nat.sub_diag in E. cbn [skipn app] in E.
      apply at_pos_app in Hp as [Hp _]. now apply (Ht _ t).
    - destruct (N.eqb_spec c c_tick) as [->|]; [|discriminate]. cbn zeta. pose proof (takewhile_op inp i c_tick r Hp) as (Hp1 & _ & _).
      set (ticks := takewhile (fun x => N.eqb x c_tick) (c_tick :: r)) in *. set (r1 := dropwhile _ _) in *.
      pose proof (gap_spaces _ _ Hp1) as G. apply at_pos_spaces in Hp1. destruct (after_spaces r1) as [|d r2]; [discriminate|].
      destruct (N.eqb d nl); [discriminate|]. destruct (close_key _ _ _ _) as [[[ke tb] y]|] eqn:E; [|discriminate]. intros [= <- <-].
      apply at_pos_cons in Hp1 as [Hp1 _]. destruct (close_key_laid tail tok ticks Ht _ _ _ _ _ Hp1 E) as (H1 & H2 & H3). cbn [kspans key_hi snd]. split; [|assumption].
      apply (laid_app i [(i, i + length ticks)] (i + length ticks)); [apply (laid_one i (i, _)); cbn [fst snd]; [reflexivity|lia]|]. apply (laid_gap _ _ _ _ G).
      apply (laid_app _ [(i + length ticks + spaces r1, ke)] ke); [apply (laid_one _ (_, ke)); cbn [fst snd]; [reflexivity|lia]|]. apply (laid_gap _ _ _ _ H2).
      apply (laid_one tb (tb, tb + length ticks)); cbn [fst snd]; [reflexivity|lia].
  Qed.

  Definition token_spans (t : token) : list span :=
    match t with
    | TEmpty _ => []
    | TDirect o v | TSpaced o v | TComment o v | TItem o v => o :: ospan v
    | TMultiline o k => [o; k]
    | TSection o k t => o :: kspans k ++ stail_spans t
    | TField k o v | TEntry k o v => kspans k ++ o :: ospan v
    | TCopy k o t => kspans k ++ [o; t]
    end.
  Theorem scan_laid i t e : i <= length inp -> scan i (skipn i inp) = Some (t, e) -> laid i (token_spans t) e.
  Proof.
    intro Hi. assert (at_pos inp i (skipn i inp)) as Hpos by (split; auto). revert Hpos. generalize (skipn i inp) as r0. intros r0 Hpos.
    unfold scan. cbn zeta. pose proof (gap_spaces i r0 Hpos) as G. apply at_pos_spaces in Hpos. revert Hpos G. generalize (i + spaces r0) as p, (after_spaces r0) as r. clear r0. intros p r Hpos G.
    destruct r as [|c r1]; [intros [= <- <-]; now apply laid_none|]. destruct (N.eqb_spec c nl) as [->|Hnl]; [intros [= <- <-]; now apply laid_none|].
    assert (not_nl c = true) as Hnn by (unfold not_nl; apply negb_true_iff; now apply N.eqb_neq).
    pose proof (at_pos_cons _ _ _ _ Hpos) as [Hpos1 _]. rewrite <- Nat.add_1_r in Hpos1.
    assert (laid i [(p, p + 1)] (p + 1)) as L by (apply (laid_gap i p _ _ G); apply (laid_one p (p, p + 1)); cbn [fst snd]; [reflexivity|lia]).
    assert (laid i ((p, p + 1) :: ospan (opt_value (p + 1) r1)) (eol p (c :: r1))) as LV.
    { apply (laid_app _ [_] _ _ _ L). rewrite <- (eol_cons p c r1 Hnn). rewrite <- (Nat.add_1_r p). now apply value_laid. }
    destruct (N.eqb c c_pipe); [intros [= <- <-]; exact LV|]. destruct (N.eqb c c_bslash); [intros [= <- <-]; exact LV|]. destruct (N.eqb c c_gt); [intros [= <- <-]; exact LV|].
    destruct (N.eqb_spec c c_dash) as [->|Hdash].
    { destruct (Nat.eqb _ _); [intros [= <- <-]; exact LV|].
      pose proof (takewhile_op inp p c_dash r1 Hpos) as (Hp2 & _ & _).
      assert (eol (p + length (takewhile (fun x => N.eqb x c_dash) (c_dash :: r1))) (dropwhile (fun x => N.eqb x c_dash) (c_dash :: r1)) = eol p (c_dash :: r1)) as Ee.
      { unfold eol. rewrite <- (take_drop_while (fun x => N.eqb x c_dash) (c_dash :: r1)) at 3. rewrite line_of_app.
        - rewrite app_length. lia.
        - eapply forallb_impl; [|apply takewhile_forallb]. intros x Hx. apply N.eqb_eq in Hx as ->. reflexivity. }
      set (n := length (takewhile _ _)) in *. set (r2 := dropwhile _ _) in *. pose proof (value_laid _ _ Hp2) as V. rewrite Ee in V.
      destruct (opt_value (p + n) r2) as [k|]; [|discriminate]. intros [= <- <-]. cbn [token_spans]. apply (laid_gap i p _ _ G).
      apply (laid_app p [_] (p + n) [k]); [apply (laid_one p (p, p + n)); cbn [fst snd]; [reflexivity|lia]|assumption]. }
    destruct (N.eqb_spec c c_hash) as [->|Hhash].
    { pose proof (takewhile_op inp p c_hash r1 Hpos) as (Hp2 & _ & _). set (n := length (takewhile _ _)) in *. set (r2 := dropwhile _ _) in *.
      pose proof (gap_blanks _ _ Hp2) as G2. apply at_pos_blanks in Hp2.
      destruct (scan_key _ _ _ _ _) as [[k [t' e']]|] eqn:E; [|discriminate]. intros [= <- <-].
      apply (scan_key_laid _ _ _ (fun i x => laid i (stail_spans (fst x)) (snd x))) in E as [Hk Ht]; [|intros i0 r0 [t0 e0]; apply section_tail_laid|exact Hp2].
      cbn [token_spans]. apply (laid_gap i p _ _ G). apply (laid_app p [_] (p + n)); [apply (laid_one p (p, p + n)); cbn [fst snd]; [reflexivity|lia]|].
      apply (laid_gap _ _ _ _ G2). exact (laid_app _ _ _ _ _ Hk Ht). }
    destruct (scan_key _ _ _ _ _) as [[k [x e']]|] eqn:E; [|discriminate].
    apply (scan_key_laid _ _ _ (fun i x => laid i (ltail_spans (fst x)) (snd x))) in E as [Hk Ht]; [|intros i0 r0 [t0 e0]; apply late_tail_laid|exact Hpos].
    destruct x as [o v|o v|o t']; intros [= <- <-]; cbn [token_spans]; apply (laid_gap i p _ _ G); exact (laid_app _ _ _ _ _ Hk Ht).
  Qed.
End Laid.
