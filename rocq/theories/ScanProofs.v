(** ScanProofs: the regular expression of grammar_regex.py decides exactly the line grammar of
    [Scan] (lemmas for property C03). *)
From Verif Require Import Base Regex RegexProofs Grammar Scan.

(** * White space and trimming *)

Lemma hspace_not_nl c : hspace c = true -> not_nl c = true.
Proof. unfold hspace, not_nl. intro H. now apply andb_true_iff in H as [_ H]. Qed.

Lemma hspace_is_space c : hspace c = true -> is_space c = true.
Proof. unfold hspace. intro H. now apply andb_true_iff in H as [H _]. Qed.

Lemma is_space_split c : is_space c = hspace c || N.eqb c nl.
Proof.
  unfold hspace. destruct (N.eqb_spec c nl) as [->|].
  - reflexivity.
  - now rewrite andb_true_r, orb_false_r.
Qed.

Lemma hspace_nl : hspace nl = false. Proof. reflexivity. Qed.

Lemma forallb_impl {A} (p q : A -> bool) l :
  (forall x, p x = true -> q x = true) -> forallb p l = true -> forallb q l = true.
Proof.
  intro H. induction l as [|x l IH]; simpl; [auto|].
  intro E. apply andb_true_iff in E as [E1 E2]. now rewrite (H _ E1), IH.
Qed.

Lemma takewhile_app {A} (p : A -> bool) a b :
  forallb p a = true -> takewhile p (a ++ b) = a ++ takewhile p b.
Proof.
  induction a as [|x a IH]; simpl; [reflexivity|].
  intro E. apply andb_true_iff in E as [-> E2]. now rewrite IH.
Qed.
Lemma dropwhile_app {A} (p : A -> bool) a b :
  forallb p a = true -> dropwhile p (a ++ b) = dropwhile p b.
Proof.
  induction a as [|x a IH]; simpl; [reflexivity|].
  intro E. apply andb_true_iff in E as [-> E2]. now apply IH.
Qed.
Lemma takewhile_forallb {A} (p : A -> bool) l : forallb p (takewhile p l) = true.
Proof. induction l as [|x l IH]; simpl; [reflexivity|]. destruct (p x) eqn:E; simpl; [now rewrite E|reflexivity]. Qed.

Lemma line_of_app a b : forallb not_nl a = true -> line_of (a ++ b) = a ++ line_of b.
Proof. apply takewhile_app. Qed.

Lemma split_spaces r : r = takewhile hspace r ++ after_spaces r.
Proof. symmetry. apply take_drop_while. Qed.

Lemma line_of_spaces r : line_of r = takewhile hspace r ++ line_of (after_spaces r).
Proof.
  rewrite (split_spaces r) at 1. apply line_of_app.
  eapply forallb_impl; [|apply takewhile_forallb]. apply hspace_not_nl.
Qed.

Lemma eol_spaces i r : eol i r = eol (i + spaces r) (after_spaces r).
Proof. unfold eol, spaces. rewrite (line_of_spaces r), app_length.  lia. Qed.

Lemma after_spaces_head r : match after_spaces r with [] => True | c :: _ => hspace c = false end.
Proof. apply dropwhile_head_match. Qed.

Lemma line_of_no_nl r : forallb not_nl (line_of r) = true.
Proof. apply takewhile_forallb. Qed.

Lemma line_of_all l : forallb not_nl l = true -> line_of l = l.
Proof. intro H. rewrite <- (app_nil_r l) at 1. rewrite line_of_app by assumption. apply app_nil_r. Qed.

(** rest = line ++ after, after = [] or begins with a line feed *)
Definition at_eol (r : text) : Prop := r = [] \/ exists r', r = nl :: r'.
Lemma line_split r : exists after, r = line_of r ++ after /\ at_eol after.
Proof.
  exists (dropwhile not_nl r). split; [symmetry; apply take_drop_while|].
  pose proof (dropwhile_head_match not_nl r) as H.
  destruct (dropwhile not_nl r) as [|c r']; [now left|right].
  exists r'. unfold not_nl in H. apply negb_false_iff, N.eqb_eq in H. now rewrite H.
Qed.
Lemma line_of_at_eol r : at_eol r -> line_of r = [].
Proof. intros [->|[r' ->]]; reflexivity. Qed.

Lemma rtrim_decomp l : exists t, l = rtrim l ++ t /\ forallb hspace t = true.
Proof.
  exists (rev (takewhile hspace (rev l))). split.
  - unfold rtrim. rewrite <- rev_app_distr, take_drop_while. now rewrite rev_involutive.
  - rewrite forallb_forall. intros x Hx. rewrite <- in_rev in Hx.
    pose proof (takewhile_forallb hspace (rev l)) as H. rewrite forallb_forall in H. now apply H.
Qed.

Lemma rtrim_suffix l x y : rtrim l = x ++ y -> y <> [] -> forallb hspace y = false.
Proof.
  intros H Hy. destruct (rev y) as [|c ry] eqn:E.
  - apply (f_equal (@rev _)) in E. rewrite rev_involutive in E. now subst.
  - apply (f_equal (@rev _)) in E. rewrite rev_involutive in E. simpl in E. subst y.
    unfold rtrim in H. apply (f_equal (@rev _)) in H.
    rewrite rev_involutive, app_assoc, rev_unit in H.
    pose proof (dropwhile_head_match hspace (rev l)) as Hd. rewrite H in Hd.
    rewrite forallb_app. simpl. rewrite Hd. now rewrite andb_false_r.
Qed.

Lemma rtrim_cons c l : hspace c = false -> exists v, rtrim (c :: l) = c :: v.
Proof.
  intro Hc. destruct (rtrim_decomp (c :: l)) as (t & E & Ht).
  destruct (rtrim (c :: l)) as [|d v] eqn:E2.
  - simpl in E. subst t. simpl in Ht. now rewrite Hc in Ht.
  - simpl in E. injection E as <- E. now exists v.
Qed.

Lemma rtrim_spaces l : forallb hspace l = true -> rtrim l = [].
Proof.
  intro H. destruct (rtrim l) as [|c v] eqn:E; [reflexivity|].
  pose proof (rtrim_suffix l [] (c :: v)) as Hs.
  assert (forallb hspace (c :: v) = false) as Hf by (apply Hs; [exact E|discriminate]).
  destruct (rtrim_decomp l) as (t & E2 & Ht). rewrite E in E2.
  rewrite E2, forallb_app in H. apply andb_true_iff in H as [H _]. congruence.
Qed.

Lemma rtrim_len l : length (rtrim l) <= length l.
Proof. destruct (rtrim_decomp l) as (t & E & _). rewrite E at 2. rewrite app_length. lia. Qed.

Section S.
Context (inp : text).
Notation m := (m inp).

(** * End of line *)

Lemma m_eol i rest g k :
  m EOL i rest g k =
  match rest with
  | [] => k i rest g
  | c :: _ => if N.eqb c nl then k i rest g else None
  end.
Proof.
  unfold EOL, lit. cbn [Regex.m]. destruct rest as [|c r]; [reflexivity|].
  destruct (N.eqb c nl) eqn:E; [reflexivity|]. destruct r; reflexivity.
Qed.

(** The end of every instruction: [[^\S\n]*(?=\n|$)]. *)
Definition Tk : mcont := fun i r g => m (Cat HS EOL) i r g final.

Lemma Tk_spec i r g :
  Tk i r g = if forallb hspace (line_of r) then Some (eol i r, g) else None.
Proof.
  unfold Tk, HS. rewrite m_cat.
  rewrite star_commit.
  2:{ intros i' c r' H. rewrite m_eol. apply hspace_not_nl in H. unfold not_nl in H.
      destruct (N.eqb c nl); [discriminate|reflexivity]. }
  rewrite m_eol. fold (after_spaces r). fold (spaces r).
  rewrite (line_of_spaces r), forallb_app, takewhile_forallb. simpl andb.
  rewrite eol_spaces.
  pose proof (after_spaces_head r) as Hh.
  destruct (after_spaces r) as [|c r'].
  - simpl. unfold final, eol. simpl. now rewrite Nat.add_0_r.
  - unfold line_of at 1. cbn [takewhile]. destruct (N.eqb c nl) eqn:E.
    + unfold not_nl at 1. rewrite E. cbn. unfold eol, line_of, not_nl, final. cbn. rewrite E. cbn.
      now rewrite Nat.add_0_r.
    + unfold not_nl at 1. rewrite E. cbn. now rewrite Hh.
Qed.

Lemma Tk_space i s r g : hspace s = true -> Tk i (s :: r) g = Tk (S i) r g.
Proof.
  intro H. rewrite !Tk_spec. unfold eol, line_of. cbn [takewhile].
  rewrite (hspace_not_nl _ H). cbn. rewrite H. cbn. now rewrite Nat.add_succ_r.
Qed.

(** * Values *)

(** the rest of the line, trimmed, in terms of a text that starts with no white space *)
Lemma lazy_line i c r n g b :
  hspace c = false -> not_nl c = true ->
  m (Star false (Chr not_nl)) (S i) r g (fun i' r' g' => Tk i' r' ((n, (b, i')) :: g'))
  = Some (eol i (c :: r), (n, (b, i + length (rtrim (line_of (c :: r))))) :: g).
Proof.
  intros Hc Hn. destruct (line_split (c :: r)) as (after & Esplit & Haft).
  unfold line_of in *. cbn [takewhile] in *. rewrite Hn in *. fold (line_of r) in *.
  destruct (rtrim_cons c (line_of r) Hc) as (v & Ev). rewrite Ev.
  destruct (rtrim_decomp (c :: line_of r)) as (t & Et & Ht). rewrite Ev in Et.
  cbn [app] in Esplit, Et. injection Esplit as Er. injection Et as El.
  pose proof (line_of_no_nl r) as Hno. rewrite El, forallb_app in Hno.
  apply andb_true_iff in Hno as [Hv Hnt].
  assert (r = v ++ t ++ after) as Er2 by (rewrite Er, El, <- app_assoc; reflexivity).
  rewrite Er2.
  rewrite lazy_skip; [|assumption|].
  - rewrite (lazy_now _ _ _ _ _ _ (eol i (c :: r), (n, (b, i + length (c :: v))) :: g)).
    { now rewrite Er2. }
    cbn beta. rewrite Tk_spec, line_of_app, (line_of_at_eol _ Haft), app_nil_r, Ht by assumption.
    unfold eol. rewrite line_of_app, (line_of_at_eol _ Haft), app_nil_r by assumption.
    unfold line_of. cbn [takewhile]. rewrite Hn. fold (line_of r). rewrite El.
    cbn [length]. rewrite app_length. repeat first [reflexivity | lia | f_equal].
  - intros a d e Ea. cbn beta. rewrite Tk_spec.
    enough (forallb hspace (line_of (e :: d ++ t ++ after)) = false) as -> by reflexivity.
    assert (forallb hspace (e :: d) = false) as Hf.
    { apply (rtrim_suffix (c :: line_of r) (c :: a)); [|discriminate]. rewrite Ev, Ea. reflexivity. }
    change (e :: d ++ t ++ after) with ((e :: d) ++ t ++ after).
    rewrite line_of_app, forallb_app, Hf; [reflexivity|].
    rewrite Ea, forallb_app in Hv. now apply andb_true_iff in Hv as [_ Hv].
Qed.

Definition vgroup (n : nat) (v : option span) (g : groups) : groups :=
  match v with Some s => (n, s) :: g | None => g end.

(** [HS OPTIONAL], then the end of the line *)
Lemma optional_spec n i r g :
  m (Cat HS (OPTIONAL n)) i r g Tk = Some (eol i r, vgroup n (opt_value i r) g).
Proof.
  unfold HS. rewrite m_cat.
  apply star_first. fold (spaces r) (after_spaces r).
  unfold opt_value. rewrite eol_spaces. generalize (i + spaces r) as p. intro p.
  pose proof (after_spaces_head r) as Hh.
  destruct (after_spaces r) as [|c r'] eqn:E.
  - unfold OPTIONAL, plus. rewrite m_opt, m_grp, m_cat, m_chr, Tk_spec. reflexivity.
  - unfold OPTIONAL, plus. rewrite m_opt, m_grp, m_cat, m_chr.
    destruct (not_nl c) eqn:En.
    + rewrite (lazy_line _ c) by assumption.
      assert (line_of (c :: r') = c :: line_of r') as El by (unfold line_of; cbn [takewhile]; now rewrite En).
      rewrite El. destruct (rtrim_cons c (line_of r') Hh) as (v & Ev). now rewrite Ev.
    + rewrite Tk_spec.
      assert (line_of (c :: r') = []) as El by (unfold line_of; cbn [takewhile]; now rewrite En).
      unfold eol. rewrite El. cbn. reflexivity.
Qed.

(** [REQUIRED] on a text that starts with no horizontal white space, then the end of the line *)
Lemma required_spec n i r g :
  match r with [] => True | c :: _ => hspace c = false end ->
  m (REQUIRED n) i r g Tk =
  match opt_value i r with Some s => Some (eol i r, (n, s) :: g) | None => None end.
Proof.
  intro Hh. unfold REQUIRED. rewrite m_grp, m_cat, m_chr.
  destruct r as [|c r']; [reflexivity|].
  unfold opt_value, spaces, after_spaces. cbn [takewhile dropwhile]. rewrite Hh. cbn [length].
  rewrite Nat.add_0_r.
  unfold nonspace. rewrite is_space_split, Hh. cbn [orb].
  destruct (N.eqb c nl) eqn:En; cbn [negb].
  - unfold line_of. cbn [takewhile]. unfold not_nl. rewrite En. reflexivity.
  - assert (not_nl c = true) as Hn by (unfold not_nl; now rewrite En).
    rewrite (lazy_line _ c) by assumption.
    assert (line_of (c :: r') = c :: line_of r') as El by (unfold line_of; cbn [takewhile]; now rewrite Hn).
    rewrite El. destruct (rtrim_cons c (line_of r') Hh) as (v & Ev). now rewrite Ev.
Qed.

Lemma required_space n i c r g k : is_space c = true -> m (REQUIRED n) i (c :: r) g k = None.
Proof. intro H. unfold REQUIRED. rewrite m_grp, m_cat, m_chr. unfold nonspace. now rewrite H. Qed.

Lemma opt_value_spaces i r : opt_value i r = opt_value (i + spaces r) (after_spaces r).
Proof.
  unfold opt_value. pose proof (after_spaces_head r) as Hh.
  assert (after_spaces (after_spaces r) = after_spaces r /\ spaces (after_spaces r) = 0) as [-> ->].
  { destruct (after_spaces r) as [|c r']; [split; reflexivity|].
    unfold after_spaces, spaces. cbn. now rewrite Hh. }
  now rewrite Nat.add_0_r.
Qed.

(** [HS REQUIRED] *)
Lemma hs_required_spec n i r g :
  m (Cat HS (REQUIRED n)) i r g Tk =
  match opt_value i r with Some s => Some (eol i r, (n, s) :: g) | None => None end.
Proof.
  unfold HS. rewrite m_cat.
  rewrite star_commit by (intros; now apply required_space, hspace_is_space).
  fold (spaces r) (after_spaces r).
  rewrite required_spec by apply after_spaces_head.
  now rewrite <- opt_value_spaces, <- eol_spaces.
Qed.

Lemma after_blanks_head r : match after_blanks r with [] => True | c :: _ => is_space c = false end.
Proof. apply dropwhile_head_match. Qed.

(** [SP REQUIRED] *)
Lemma sp_required_spec n i r g :
  m (Cat SP (REQUIRED n)) i r g Tk =
  match opt_value (i + blanks r) (after_blanks r) with
  | Some s => Some (eol (i + blanks r) (after_blanks r), (n, s) :: g)
  | None => None
  end.
Proof.
  unfold SP. rewrite m_cat.
  rewrite star_commit by (intros; now apply required_space).
  fold (blanks r) (after_blanks r).
  apply required_spec. pose proof (after_blanks_head r) as H.
  destruct (after_blanks r) as [|c r']; [exact I|].
  unfold hspace. now rewrite H.
Qed.

(** * Keys *)

(** A lazy run of key characters after a visible first one [c], when the continuation (whose
    value is [enc] of what [tail] says) fails in front of visible key characters and skips
    horizontal white space. *)
Lemma lazy_key {A} p (tail : nat -> text -> option A) (enc : nat -> A -> nat * groups) K i c r g :
  (forall c, p c = true -> not_nl c = true) ->
  (forall j r', K j r' g = option_map (enc j) (tail j r')) ->
  (forall j w d z, forallb hspace w = true -> hspace d = false -> p d = true -> tail j (w ++ d :: z) = None) ->
  (forall j s r', hspace s = true -> tail j (s :: r') = tail (S j) r') ->
  hspace c = false ->
  let n := length (rtrim (c :: takewhile p r)) in
  m (Star false (Chr p)) (S i) r g K = option_map (enc (i + n)) (tail (i + n) (skipn n (c :: r))).
Proof.
  intros Hp HK Hvis Hskip Hc n.
  destruct (rtrim_cons c (takewhile p r) Hc) as (v & Ev). unfold n. rewrite Ev. clear n.
  destruct (rtrim_decomp (c :: takewhile p r)) as (t & Et & Ht). rewrite Ev in Et.
  cbn [app] in Et. injection Et as El.
  pose proof (takewhile_forallb p r) as Hall. rewrite El, forallb_app in Hall.
  apply andb_true_iff in Hall as [Hv Hpt].
  assert (r = v ++ t ++ dropwhile p r) as Er.
  { rewrite app_assoc, <- El. symmetry. apply take_drop_while. }
  pose proof (dropwhile_head_match p r) as Hend.
  set (after := dropwhile p r) in *. clearbody after.
  assert (skipn (length (c :: v)) (c :: r) = t ++ after) as ->.
  { cbn [length skipn]. rewrite Er, skipn_app, skipn_all, Nat.sub_diag. reflexivity. }
  rewrite Er. clear Er. rewrite lazy_skip; [|assumption|].
  - cbn [length]. replace (i + S (length v)) with (S i + length v) by lia.
    generalize (S i + length v) as j. intro j.
    rewrite m_lazy_chr, HK. destruct (tail j (t ++ after)) as [x|] eqn:Etail; [reflexivity|].
    cbn [option_map].
    assert (forall t j, forallb hspace t = true -> tail j (t ++ after) = None ->
             forall a b, t ++ after = a ++ b -> forallb p a = true -> tail (j + length a) b = None) as Hno.
    { clear - Hskip Hend. induction t as [|s t IH]; intros j Ht Hj a b Eab Ha.
      - cbn [app] in *. destruct a as [|x a].
        + simpl in *. subst. now rewrite Nat.add_0_r.
        + destruct after as [|y after]; [discriminate|]. simpl in Eab. injection Eab as -> ->.
          simpl in Ha. now rewrite Hend in Ha.
      - destruct a as [|x a].
        + simpl in *. rewrite <- Eab, Nat.add_0_r. exact Hj.
        + simpl in Ht. apply andb_true_iff in Ht as [Hs Ht]. cbn [app] in *.
          injection Eab as <- Eab. rewrite Hskip in Hj by assumption.
          simpl in Ha. apply andb_true_iff in Ha as [_ Ha].
          cbn [length]. rewrite Nat.add_succ_r. apply (IH (S j) Ht Hj a b Eab Ha). }
    assert (forall a b, t ++ after = a ++ b -> forallb p a = true -> K (j + length a) b g = None) as HKn.
    { intros a b Eab Ha. rewrite HK. now rewrite (Hno t j Ht Etail a b Eab Ha). }
    pose proof (lazy_fail inp p j (t ++ after) g K HKn) as Hl.
    rewrite m_lazy_chr, HK, Etail in Hl. exact Hl.
  - intros a b d Ea. rewrite HK.
    enough (tail (S i + length a) (d :: b ++ t ++ after) = None) as -> by reflexivity.
    assert (forallb hspace (d :: b) = false) as Hf.
    { apply (rtrim_suffix (c :: takewhile p r) (c :: a)); [|discriminate]. rewrite Ev, Ea. reflexivity. }
    assert (forallb p (d :: b) = true) as Hpd.
    { rewrite Ea, forallb_app in Hv. now apply andb_true_iff in Hv as [_ Hv]. }
    assert (exists w e z, d :: b = w ++ e :: z /\ forallb hspace w = true /\ hspace e = false) as (w & e & z & E & Hw & He).
    { clear - Hf. generalize dependent (d :: b). induction l as [|x l IH]; simpl; [discriminate|].
      destruct (hspace x) eqn:Ex; simpl.
      - intro H. destruct (IH H) as (w & e & z & -> & Hw & He). exists (x :: w), e, z.
        simpl. rewrite Ex. auto.
      - intros _. exists [], x, l. auto. }
    change (d :: b ++ t ++ after) with ((d :: b) ++ t ++ after). rewrite E, <- app_assoc. cbn [app].
    apply Hvis; try assumption.
    rewrite E, forallb_app in Hpd. apply andb_true_iff in Hpd as [_ Hpd]. simpl in Hpd.
    now apply andb_true_iff in Hpd as [Hpd _].
Qed.

Definition enc_key (nu nb : nat) (k : kspan) (g : groups) : groups :=
  match k with
  | Plain s => (nu, s) :: g
  | Escaped b k e => (nb + 2, e) :: (nb + 1, k) :: (nb, b) :: g
  end.

(** The lazy search for the end of an escaped key. *)
Lemma close_spec {A} (tail : nat -> text -> option A) (enc : groups -> A -> nat * groups) K
  nb b0 ticks p j r g :
  (forall j r' g, K j r' g = option_map (enc g) (tail j r')) ->
  gget g nb = Some b0 -> slice inp (fst b0) (snd b0) = ticks -> ticks <> [] ->
  forallb (fun x => N.eqb x c_tick) ticks = true ->
  m (Star false (Chr not_nl)) j r g
    (fun i' r' g' => m (Cat HS (Grp (nb + 2) (Ref nb))) i' r' ((nb + 1, (p, i')) :: g') K)
  = option_map (fun '(ke, tb, x) => enc ((nb + 2, (tb, tb + length ticks)) :: (nb + 1, (p, ke)) :: g) x)
      (close_key tail ticks j r).
Proof.
  intros HK Hg Hs Hne Hti. revert j. induction r as [|c r IH]; intro j; rewrite m_lazy_chr; cbn [close_key].
  - rewrite m_cat. unfold HS. rewrite star_commit.
    2:{ intros i' c r' H. rewrite m_grp. rewrite (m_ref inp nb (fst b0) (snd b0)).
        - rewrite Hs. destruct ticks as [|x tk]; [congruence|]. cbn [strip_prefix].
          simpl in Hti. apply andb_true_iff in Hti as [Hx _]. apply N.eqb_eq in Hx as ->.
          destruct (N.eqb_spec c_tick c) as [<-|]; [discriminate H|reflexivity].
        - cbn [gget]. replace (Nat.eqb (nb + 1) nb) with false by (symmetry; apply Nat.eqb_neq; lia).
          rewrite Hg. now destruct b0. }
    rewrite m_grp. rewrite (m_ref inp nb (fst b0) (snd b0)).
    2:{ cbn [gget]. replace (Nat.eqb (nb + 1) nb) with false by (symmetry; apply Nat.eqb_neq; lia).
        rewrite Hg. now destruct b0. }
    rewrite Hs. fold (spaces []) (after_spaces []). unfold after_spaces. cbn [dropwhile].
    destruct (strip_prefix ticks []); [|reflexivity].
    rewrite HK. destruct (tail _ l); reflexivity.
  - rewrite m_cat. unfold HS. rewrite star_commit.
    2:{ intros i' d r' H. rewrite m_grp. rewrite (m_ref inp nb (fst b0) (snd b0)).
        - rewrite Hs. destruct ticks as [|x tk]; [congruence|]. cbn [strip_prefix].
          simpl in Hti. apply andb_true_iff in Hti as [Hx _]. apply N.eqb_eq in Hx as ->.
          destruct (N.eqb_spec c_tick d) as [<-|]; [discriminate H|reflexivity].
        - cbn [gget]. replace (Nat.eqb (nb + 1) nb) with false by (symmetry; apply Nat.eqb_neq; lia).
          rewrite Hg. now destruct b0. }
    rewrite m_grp. rewrite (m_ref inp nb (fst b0) (snd b0)).
    2:{ cbn [gget]. replace (Nat.eqb (nb + 1) nb) with false by (symmetry; apply Nat.eqb_neq; lia).
        rewrite Hg. now destruct b0. }
    rewrite Hs. fold (spaces (c :: r)) (after_spaces (c :: r)).
    destruct (strip_prefix ticks (after_spaces (c :: r))) as [l|].
    + rewrite HK. destruct (tail _ l); [reflexivity|]. cbn [option_map].
      destruct (not_nl c); [|reflexivity]. apply IH.
    + destruct (not_nl c); [|reflexivity]. apply IH.
Qed.

Lemma takewhile_head_ne {A} (p : A -> bool) c r : p c = true -> takewhile p (c :: r) <> [].
Proof. intro H. cbn [takewhile]. now rewrite H. Qed.

Lemma key_spec {A} first p (tail : nat -> text -> option A) (enc : groups -> A -> nat * groups) K
  nu nb i r g :
  (forall c, p c = true -> not_nl c = true) ->
  (forall c, first c = true -> hspace c = false) ->
  first c_tick = false ->
  (forall j r' g, K j r' g = option_map (enc g) (tail j r')) ->
  (forall j w d z, forallb hspace w = true -> hspace d = false -> p d = true -> tail j (w ++ d :: z) = None) ->
  (forall j s r', hspace s = true -> tail j (s :: r') = tail (S j) r') ->
  skipn i inp = r ->
  m (Alt (Grp nu (Cat (Chr first) (Star false (Chr p)))) (ESCAPED nb)) i r g K
  = option_map (fun '(k, x) => enc (enc_key nu nb k g) x) (scan_key first p tail i r).
Proof.
  intros Hp Hf Hft HK Hvis Hskip Hi. rewrite m_alt, m_grp, m_cat, m_chr.
  unfold scan_key. destruct r as [|c r].
  { reflexivity. }
  assert (m (ESCAPED nb) i (c :: r) g K = if N.eqb c c_tick then
     option_map (fun '(k, x) => enc (enc_key nu nb k g) x)
       (let ticks := takewhile (fun x => N.eqb x c_tick) (c :: r) in
        let r1 := dropwhile (fun x => N.eqb x c_tick) (c :: r) in
        let p := i + length ticks + spaces r1 in
        match after_spaces r1 with
        | [] => None
        | d :: r2 =>
            if N.eqb d nl then None
            else
              match close_key tail ticks (S p) r2 with
              | Some (ke, tb, x) =>
                  Some (Escaped (i, i + length ticks) (p, ke) (tb, tb + length ticks), x)
              | None => None
              end
        end) else None) as Hesc.
  { unfold ESCAPED, plus, lit. rewrite m_cat, m_grp, m_cat, m_chr.
    destruct (N.eqb c c_tick) eqn:Et; [|reflexivity].
    rewrite star_commit.
    2:{ intros i' d r' H. rewrite m_cat. fold (lit c_tick). rewrite m_nlook_lit. now rewrite H. }
    cbn zeta. cbn [takewhile dropwhile]. rewrite Et. cbn [length].
    set (tk := takewhile (fun x => N.eqb x c_tick) r).
    set (r1 := dropwhile (fun x => N.eqb x c_tick) r).
    rewrite m_cat. fold (lit c_tick).
    rewrite m_nlook_pass by exact (dropwhile_head_match (fun x => N.eqb x c_tick) r).
    rewrite m_cat. unfold HS at 1. rewrite star_commit.
    2:{ intros i' d r' H. rewrite m_cat. apply required_space. now apply hspace_is_space. }
    fold (spaces r1) (after_spaces r1).
    rewrite m_cat. unfold REQUIRED. rewrite m_grp, m_cat, m_chr.
    pose proof (after_spaces_head r1) as Hh1.
    destruct (after_spaces r1) as [|d r2] eqn:Er2; [reflexivity|].
    unfold nonspace. rewrite is_space_split, Hh1. cbn [orb].
    destruct (N.eqb d nl); cbn [negb]; [reflexivity|].
    assert (slice inp i (S i + length tk) = c :: tk) as Hsl.
    { unfold slice. rewrite Hi. replace (S i + length tk - i) with (S (length tk)) by lia.
      cbn [firstn]. f_equal. unfold tk, r1 in *. rewrite <- (take_drop_while (fun x => N.eqb x c_tick) r) at 2.
      rewrite firstn_app, Nat.sub_diag, firstn_O, app_nil_r. apply firstn_all. }
    rewrite (close_spec tail enc K nb (i, S i + length tk) (c :: tk)); try assumption.
    - cbn [length]. replace (S i + length tk) with (i + S (length tk)) by lia.
      destruct (close_key tail (c :: tk) _ r2) as [[[ke tb] x]|]; [|reflexivity].
      cbn [option_map enc_key]. reflexivity.
    - cbn [gget]. now rewrite Nat.eqb_refl.
    - discriminate.
    - cbn [forallb]. rewrite Et. apply takewhile_forallb. }
  rewrite Hesc. clear Hesc. destruct (first c) eqn:Efc.
  - rewrite (lazy_key p tail (fun j x => enc ((nu, (i, j)) :: g) x) _ i c); try assumption.
    2:{ intros. apply HK. }
    2:{ now apply Hf. }
    destruct (tail _ _); [reflexivity|]. cbn [option_map].
    destruct (N.eqb_spec c c_tick) as [->|]; [congruence|reflexivity].
  - destruct (N.eqb c c_tick); reflexivity.
Qed.

(** * What follows a key *)

Definition tgroup (t : option (span * span)) (g : groups) : groups :=
  match t with Some (o, s) => (18, s) :: (17, o) :: g | None => g end.

Lemma line_of_cons c r : not_nl c = true -> line_of (c :: r) = c :: line_of r.
Proof. intro H. unfold line_of. cbn [takewhile]. now rewrite H. Qed.

Lemma Tk_none i c r g : hspace c = false -> not_nl c = true -> Tk i (c :: r) g = None.
Proof. intros H1 H2. rewrite Tk_spec, line_of_cons by assumption. cbn [forallb]. now rewrite H1. Qed.

Lemma template_other i r g :
  match r with [] => True | c :: _ => N.eqb c c_lt = false end ->
  m SECTION_TEMPLATE i r g Tk = Tk i r g.
Proof.
  intro H. unfold SECTION_TEMPLATE, lit. rewrite m_opt, m_cat, m_grp, m_alt, !m_cat, !m_chr.
  destruct r as [|c r]; [reflexivity|]. now rewrite H.
Qed.

Lemma template_lt i r g :
  m SECTION_TEMPLATE i (c_lt :: r) g Tk =
  let '(n, r2) := match r with
                  | d :: r2 => if N.eqb d c_lt then (2, r2) else (1, r)
                  | [] => (1, r)
                  end in
  match opt_value (i + n) r2 with
  | Some t => Some (eol (i + n) r2, (18, t) :: (17, (i, i + n)) :: g)
  | None => None
  end.
Proof.
  unfold SECTION_TEMPLATE. rewrite m_opt, m_cat, m_grp, m_alt, !m_cat. unfold lit at 1 3. rewrite !m_chr.
  change (N.eqb c_lt c_lt) with true. cbn iota. rewrite m_nlook_lit. unfold lit. rewrite m_chr.
  rewrite (Tk_none i c_lt r g) by reflexivity.
  assert (i + 1 = S i) as E1 by lia. assert (i + 2 = S (S i)) as E2 by lia.
  destruct r as [|d r2].
  - rewrite hs_required_spec, E1. now destruct (opt_value (S i) []).
  - destruct (N.eqb d c_lt); rewrite hs_required_spec, ?E1, ?E2.
    + now destruct (opt_value (S (S i)) r2).
    + now destruct (opt_value (S i) (d :: r2)).
Qed.

Lemma section_tail_spec j r g :
  m (Cat HS SECTION_TEMPLATE) j r g Tk
  = option_map (fun '(t, e) => (e, tgroup t g)) (section_tail j r).
Proof.
  rewrite m_cat. unfold HS. rewrite star_commit_mono.
  - fold (spaces r) (after_spaces r). unfold section_tail. cbn zeta.
    generalize (j + spaces r) as p. intro p. pose proof (after_spaces_head r) as Hh.
    destruct (after_spaces r) as [|c r1].
    + rewrite template_other by exact I. rewrite Tk_spec. unfold eol. simpl. now rewrite Nat.add_0_r.
    + destruct (N.eqb_spec c nl) as [->|Hnl].
      * rewrite template_other by reflexivity. rewrite Tk_spec. unfold eol. simpl. now rewrite Nat.add_0_r.
      * destruct (N.eqb_spec c c_lt) as [->|Hlt].
        -- rewrite template_lt. destruct (match r1 with [] => _ | _ => _ end) as [n r2].
           destruct (opt_value (p + n) r2); reflexivity.
        -- rewrite template_other by (now apply N.eqb_neq). apply Tk_none; [assumption|].
           unfold not_nl. apply negb_true_iff. now apply N.eqb_neq.
  - intros i' c r' Hc Hn. rewrite template_other.
    2:{ destruct (N.eqb_spec c c_lt) as [->|]; [discriminate Hc|reflexivity]. }
    rewrite Tk_space by assumption.
    unfold SECTION_TEMPLATE in Hn. rewrite m_opt in Hn.
    destruct (m (Cat _ _) (S i') r' g Tk); [discriminate|exact Hn].
Qed.

Definition lgroup (x : ltail) (g : groups) : groups :=
  match x with
  | LField o v => vgroup 24 v ((23, o) :: g)
  | LEntry o v => vgroup 26 v ((25, o) :: g)
  | LCopy o t => (28, t) :: (27, o) :: g
  end.

Definition late_re : re := Alt ELEMENT_OR_FIELD (Alt FIELDSET_ENTRY_RE COPY).
Lemma late_tail_spec j r g :
  m (Cat SP late_re) j r g Tk
  = option_map (fun '(x, e) => (e, lgroup x g)) (late_tail j r).
Proof.
  rewrite m_cat. unfold SP. rewrite star_commit.
  - fold (blanks r) (after_blanks r). unfold late_tail. cbn zeta.
    generalize (j + blanks r) as p. intro p.
    unfold late_re, ELEMENT_OR_FIELD, FIELDSET_ENTRY_RE, COPY, lit.
    rewrite !m_alt. rewrite !(m_cat _ (Grp _ _)), !m_grp, !m_chr.
    destruct (after_blanks r) as [|c r1]; [reflexivity|].
    rewrite !Nat.add_1_r.
    destruct (N.eqb_spec c c_colon) as [->|H1].
    { rewrite optional_spec. reflexivity. }
    destruct (N.eqb_spec c c_eq) as [->|H2].
    { rewrite optional_spec. reflexivity. }
    destruct (N.eqb_spec c c_lt) as [->|H3]; [|reflexivity].
    rewrite sp_required_spec. destruct (opt_value _ _); reflexivity.
  - intros i' c r' Hc. unfold late_re, ELEMENT_OR_FIELD, FIELDSET_ENTRY_RE, COPY, lit.
    rewrite !m_alt. rewrite !(m_cat _ (Grp _ _)), !m_grp, !m_chr.
    destruct (N.eqb_spec c c_colon) as [->|H1]; [discriminate Hc|].
    destruct (N.eqb_spec c c_eq) as [->|H2]; [discriminate Hc|].
    destruct (N.eqb_spec c c_lt) as [->|H3]; [discriminate Hc|reflexivity].
Qed.

Lemma section_tail_skip j s r : hspace s = true -> section_tail j (s :: r) = section_tail (S j) r.
Proof.
  intro H. unfold section_tail, spaces, after_spaces. cbn [takewhile dropwhile]. rewrite H.
  cbn [length]. now rewrite Nat.add_succ_r.
Qed.
Lemma late_tail_skip j s r : hspace s = true -> late_tail j (s :: r) = late_tail (S j) r.
Proof.
  intro H. apply hspace_is_space in H. unfold late_tail, blanks, after_blanks. cbn [takewhile dropwhile]. rewrite H.
  cbn [length]. now rewrite Nat.add_succ_r.
Qed.

Lemma section_tail_vis j w d z :
  forallb hspace w = true -> hspace d = false -> skey_char d = true -> section_tail j (w ++ d :: z) = None.
Proof.
  revert j. induction w as [|s w IH]; intros j Hw Hd Hp.
  - cbn [app]. unfold section_tail, spaces, after_spaces. cbn [takewhile dropwhile]. rewrite Hd.
    unfold skey_char in Hp. destruct (N.eqb d c_lt); [discriminate|]. destruct (N.eqb d nl); [discriminate|].
    reflexivity.
  - simpl in Hw. apply andb_true_iff in Hw as [Hs Hw]. cbn [app]. rewrite section_tail_skip by assumption. now apply IH.
Qed.
Lemma late_tail_vis j w d z :
  forallb hspace w = true -> hspace d = false -> key_char d = true -> late_tail j (w ++ d :: z) = None.
Proof.
  revert j. induction w as [|s w IH]; intros j Hw Hd Hp.
  - cbn [app]. unfold key_char in Hp. apply negb_true_iff in Hp.
    apply orb_false_iff in Hp as [Hp H4]. apply orb_false_iff in Hp as [Hp H3]. apply orb_false_iff in Hp as [H1 H2].
    unfold late_tail, blanks, after_blanks. cbn [takewhile dropwhile].
    rewrite is_space_split, Hd, H1. cbn [orb]. now rewrite H2, H3, H4.
  - simpl in Hw. apply andb_true_iff in Hw as [Hs Hw]. cbn [app]. rewrite late_tail_skip by assumption. now apply IH.
Qed.

Lemma skey_char_nl c : skey_char c = true -> not_nl c = true.
Proof. unfold skey_char, not_nl. destruct (N.eqb c nl); [rewrite orb_true_r; discriminate|reflexivity]. Qed.
Lemma key_char_nl c : key_char c = true -> not_nl c = true.
Proof. unfold key_char, not_nl. destruct (N.eqb c nl); [discriminate|reflexivity]. Qed.
Lemma skey_first_vis c : skey_first c = true -> hspace c = false.
Proof. unfold skey_first, hspace. destruct (is_space c); [discriminate|reflexivity]. Qed.
Lemma key_first_vis c : key_first c = true -> hspace c = false.
Proof. unfold key_first, hspace. destruct (is_space c); [discriminate|reflexivity]. Qed.

Lemma section_key_spec i r g :
  skipn i inp = r ->
  m (Cat SECTION_KEY (Cat HS SECTION_TEMPLATE)) i r g Tk
  = option_map (fun '(k, (t, e)) => (e, tgroup t (enc_key 13 14 k g)))
      (scan_key skey_first skey_char section_tail i r).
Proof.
  intro Hi. rewrite m_cat. unfold SECTION_KEY, SECTION_KEY_UNESCAPED, SECTION_KEY_ESCAPED.
  rewrite (key_spec skey_first skey_char section_tail (fun g '(t, e) => (e, tgroup t g))).
  - destruct (scan_key _ _ _ i r) as [[k [t e]]|]; reflexivity.
  - apply skey_char_nl.
  - apply skey_first_vis.
  - reflexivity.
  - intros. apply section_tail_spec.
  - apply section_tail_vis.
  - apply section_tail_skip.
  - exact Hi.
Qed.

Lemma late_key_spec i r g :
  skipn i inp = r ->
  m LATE_DETERMINED i r g Tk
  = option_map (fun '(k, (x, e)) => (e, lgroup x (enc_key 19 20 k g)))
      (scan_key key_first key_char late_tail i r).
Proof.
  intro Hi. unfold LATE_DETERMINED. rewrite m_cat. unfold KEY, KEY_UNESCAPED, KEY_ESCAPED.
  rewrite (key_spec key_first key_char late_tail (fun g '(x, e) => (e, lgroup x g))).
  - destruct (scan_key _ _ _ i r) as [[k [t e]]|]; reflexivity.
  - apply key_char_nl.
  - apply key_first_vis.
  - reflexivity.
  - intros. apply late_tail_spec.
  - apply late_tail_vis.
  - apply late_tail_skip.
  - exact Hi.
Qed.

(** * Whole instructions *)

(** The captures of each kind of instruction. *)
Definition encode (t : token) : groups :=
  match t with
  | TEmpty p => [(1, (p, p))]
  | TDirect op v => vgroup 3 v [(2, op)]
  | TSpaced op v => vgroup 5 v [(4, op)]
  | TComment op v => vgroup 7 v [(6, op)]
  | TItem op v => vgroup 9 v [(8, op)]
  | TMultiline op k => [(11, k); (10, op)]
  | TSection op k t => tgroup t (enc_key 13 14 k [(12, op)])
  | TField k op v => lgroup (LField op v) (enc_key 19 20 k [])
  | TEntry k op v => lgroup (LEntry op v) (enc_key 19 20 k [])
  | TCopy k op t => lgroup (LCopy op t) (enc_key 19 20 k [])
  end.

Lemma scan_key_none {A} first p (tail : nat -> text -> option A) i c r :
  first c = false -> N.eqb c c_tick = false -> scan_key first p tail i (c :: r) = None.
Proof. intros H1 H2. unfold scan_key. now rewrite H1, H2. Qed.

Lemma skipn_dropwhile (p : char -> bool) i r : skipn i inp = r ->
  skipn (i + length (takewhile p r)) inp = dropwhile p r.
Proof.
  intro H. rewrite skipn_plus, H. rewrite <- (take_drop_while p r) at 2.
  rewrite skipn_app, skipn_all, Nat.sub_diag. reflexivity.
Qed.

Lemma section_spec i r g :
  skipn i inp = c_hash :: r ->
  m SECTION_RE i (c_hash :: r) g Tk =
  let n := length (takewhile (fun x => N.eqb x c_hash) (c_hash :: r)) in
  let r2 := dropwhile (fun x => N.eqb x c_hash) (c_hash :: r) in
  option_map (fun '(k, (t, e)) => (e, tgroup t (enc_key 13 14 k ((12, (i, i + n)) :: g))))
    (scan_key skey_first skey_char section_tail (i + n + blanks r2) (after_blanks r2)).
Proof.
  intro Hi. unfold SECTION_RE, SECTION_OPERATOR, plus. unfold lit at 1 2.
  rewrite !m_cat, m_grp, m_cat, m_chr. change (N.eqb c_hash c_hash) with true. cbn iota.
  rewrite star_commit.
  2:{ intros i' d r' H. rewrite m_nlook_lit. now rewrite H. }
  rewrite m_nlook_pass by exact (dropwhile_head_match (fun x => N.eqb x c_hash) r).
  rewrite m_cat. unfold SP. rewrite star_commit.
  2:{ intros i' d r' H. rewrite m_cat. unfold SECTION_KEY, SECTION_KEY_UNESCAPED, SECTION_KEY_ESCAPED, ESCAPED, plus, lit.
      rewrite m_alt, !m_cat, !m_grp, !m_cat, !m_chr.
      unfold skey_first. rewrite H. cbn [orb negb]. 
      destruct (N.eqb_spec d c_tick) as [->|]; [discriminate H|reflexivity]. }
  cbn zeta. cbn [takewhile dropwhile]. change (N.eqb c_hash c_hash) with true. cbn iota. cbn [length].
  set (n := length (takewhile (fun x => N.eqb x c_hash) r)).
  set (r2 := dropwhile (fun x => N.eqb x c_hash) r).
  fold (blanks r2) (after_blanks r2).
  rewrite section_key_spec.
  - replace (i + S n) with (S i + n) by lia. reflexivity.
  - unfold blanks, after_blanks. apply skipn_dropwhile.
    unfold r2, n. apply skipn_dropwhile. now apply skipn_S_cons in Hi.
Qed.

Lemma multiline_spec i r g :
  skipn i inp = c_dash :: r ->
  m MULTILINE_FIELD i (c_dash :: r) g Tk =
  let n := length (takewhile (fun x => N.eqb x c_dash) (c_dash :: r)) in
  let r2 := dropwhile (fun x => N.eqb x c_dash) (c_dash :: r) in
  if Nat.eqb n 1 then None else
  match opt_value (i + n) r2 with
  | Some k => Some (eol i (c_dash :: r), (11, k) :: (10, (i, i + n)) :: g)
  | None => None
  end.
Proof.
  intro Hi. unfold MULTILINE_FIELD. unfold lit at 1 2 3.
  rewrite m_cat, m_grp, m_cat, m_chr. change (N.eqb c_dash c_dash) with true. cbn iota. rewrite m_cat, m_chr.
  cbn zeta. cbn [takewhile dropwhile]. change (N.eqb c_dash c_dash) with true. cbn iota.
  destruct r as [|d r]; [reflexivity|]. cbn [takewhile dropwhile].
  destruct (N.eqb d c_dash) eqn:Ed; [|reflexivity]. apply N.eqb_eq in Ed as ->.
  rewrite star_commit.
  2:{ intros i' d r' H. rewrite m_cat, m_nlook_lit. now rewrite H. }
  rewrite m_cat, m_nlook_pass by exact (dropwhile_head_match (fun x => N.eqb x c_dash) r).
  rewrite hs_required_spec. cbn [length]. cbn [Nat.eqb].
  set (n := length (takewhile (fun x => N.eqb x c_dash) r)).
  set (r2 := dropwhile (fun x => N.eqb x c_dash) r).
  replace (i + S (S n)) with (S (S i) + n) by lia.
  assert (eol (S (S i) + n) r2 = eol i (c_dash :: c_dash :: r)) as ->; [|reflexivity].
  unfold eol. rewrite !line_of_cons by reflexivity. cbn [length].
  rewrite <- (take_drop_while (fun x => N.eqb x c_dash) r) at 1. rewrite line_of_app.
  - rewrite app_length. fold n r2. lia.
  - eapply forallb_impl; [|apply takewhile_forallb]. intros x Hx. apply N.eqb_eq in Hx as ->. reflexivity.
Qed.

Lemma eol_cons i c r : not_nl c = true -> eol (S i) r = eol i (c :: r).
Proof. intro H. unfold eol. rewrite line_of_cons by assumption. cbn [length]. lia. Qed.

Lemma NOT_EMPTY_space i c r g : hspace c = true -> m NOT_EMPTY i (c :: r) g Tk = None.
Proof.
  intro H. unfold NOT_EMPTY, EARLY_DETERMINED, DIRECT_LINE_CONTINUATION, SPACED_LINE_CONTINUATION,
    COMMENT_RE, LIST_ITEM_RE, MULTILINE_FIELD, SECTION_RE, SECTION_OPERATOR, LATE_DETERMINED, KEY,
    KEY_UNESCAPED, KEY_ESCAPED, ESCAPED, plus, lit.
  rewrite !m_alt, !m_cat, !m_grp, !m_cat, m_alt, !m_grp, !m_cat, !m_grp, !m_cat, !m_chr.
  assert (forall x, hspace x = false -> N.eqb c x = false) as Hx.
  { intros x E. destruct (N.eqb_spec c x) as [->|]; [congruence|reflexivity]. }
  rewrite !Hx by reflexivity.
  unfold key_first. rewrite (hspace_is_space _ H). reflexivity.
Qed.

Theorem regex_scan i :
  m REGEX i (skipn i inp) [] final
  = option_map (fun '(t, e) => (e, encode t)) (scan i (skipn i inp)).
Proof.
  remember (skipn i inp) as r0 eqn:Hr0. symmetry in Hr0.
  unfold REGEX. rewrite m_cat. unfold HS at 1. rewrite star_commit_mono.
  2:{ intros i' c r' Hc Hn. rewrite m_cat. fold Tk.
      change (m (Alt EMPTY NOT_EMPTY) i' (c :: r') [] Tk = None).
      change (m (Alt EMPTY NOT_EMPTY) (S i') r' [] Tk = None) in Hn.
      rewrite m_alt in *. unfold EMPTY in *. rewrite m_grp, m_eps in *.
      rewrite NOT_EMPTY_space by assumption.
      rewrite Tk_space by assumption. rewrite Tk_spec in *.
      destruct (forallb hspace (line_of r')); [discriminate|reflexivity]. }
  fold (spaces r0) (after_spaces r0). unfold scan. cbn zeta.
  assert (skipn (i + spaces r0) inp = after_spaces r0) as Hi.
  { unfold spaces, after_spaces. now apply skipn_dropwhile. }
  pose proof (after_spaces_head r0) as Hh.
  revert Hi Hh. generalize (i + spaces r0) as p, (after_spaces r0) as r. clear i r0 Hr0.
  intros p r Hi Hh. rewrite m_cat.
  change (m (Alt EMPTY NOT_EMPTY) p r [] Tk
    = option_map (fun '(t, e) => (e, encode t))
     match r with
      | [] => Some (TEmpty p, p)
      | c :: r1 =>
      let op := (p, p + 1) in
      if N.eqb c nl then Some (TEmpty p, p)
      else if N.eqb c c_pipe then Some (TDirect op (opt_value (p + 1) r1), eol p r)
      else if N.eqb c c_bslash then Some (TSpaced op (opt_value (p + 1) r1), eol p r)
      else if N.eqb c c_gt then Some (TComment op (opt_value (p + 1) r1), eol p r)
      else if N.eqb c c_dash then
        let n := length (takewhile (fun x => N.eqb x c_dash) r) in
        let r2 := dropwhile (fun x => N.eqb x c_dash) r in
        if Nat.eqb n 1 then Some (TItem op (opt_value (p + 1) r1), eol p r)
        else
          match opt_value (p + n) r2 with
          | Some k => Some (TMultiline (p, p + n) k, eol p r)
          | None => None
          end
      else if N.eqb c c_hash then
        let n := length (takewhile (fun x => N.eqb x c_hash) r) in
        let r2 := dropwhile (fun x => N.eqb x c_hash) r in
        match scan_key skey_first skey_char section_tail (p + n + blanks r2) (after_blanks r2) with
        | Some (k, (t, e)) => Some (TSection (p, p + n) k t, e)
        | None => None
        end
      else
        match scan_key key_first key_char late_tail p r with
        | Some (k, (LField o v, e)) => Some (TField k o v, e)
        | Some (k, (LEntry o v, e)) => Some (TEntry k o v, e)
        | Some (k, (LCopy o t, e)) => Some (TCopy k o t, e)
        | None => None
        end
      end).
  rewrite m_alt. unfold EMPTY. rewrite m_grp, m_eps, Tk_spec.
  destruct r as [|c r1]; [unfold eol; simpl; now rewrite Nat.add_0_r|].
  destruct (N.eqb_spec c nl) as [->|Hnl]; [unfold eol; simpl; now rewrite Nat.add_0_r|].
  assert (not_nl c = true) as Hnn by (unfold not_nl; apply negb_true_iff; now apply N.eqb_neq).
  rewrite line_of_cons by assumption. cbn [forallb]. rewrite Hh. cbn [andb].
  unfold NOT_EMPTY, EARLY_DETERMINED. rewrite !m_alt.
  unfold DIRECT_LINE_CONTINUATION. rewrite (m_cat _ (Grp 2 _)), m_grp. unfold lit at 1. rewrite m_chr.
  cbn zeta. rewrite Nat.add_1_r.
  destruct (N.eqb_spec c c_pipe) as [->|Hpipe].
  { rewrite optional_spec, (eol_cons _ c_pipe) by reflexivity. reflexivity. }
  unfold SPACED_LINE_CONTINUATION. rewrite (m_cat _ (Grp 4 _)), m_grp. unfold lit at 1. rewrite m_chr.
  destruct (N.eqb_spec c c_bslash) as [->|Hbs].
  { rewrite optional_spec, (eol_cons _ c_bslash) by reflexivity. reflexivity. }
  unfold COMMENT_RE. rewrite (m_cat _ (Grp 6 _)), m_grp. unfold lit at 1. rewrite m_chr.
  destruct (N.eqb_spec c c_gt) as [->|Hgt].
  { rewrite optional_spec, (eol_cons _ c_gt) by reflexivity. reflexivity. }
  unfold LIST_ITEM_RE. rewrite (m_cat _ (Grp 8 _)), m_grp. unfold lit at 1. rewrite m_chr.
  destruct (N.eqb_spec c c_dash) as [->|Hdash].
  { rewrite (m_cat _ (NLook _)), m_nlook_lit, multiline_spec by assumption.
    cbn zeta. cbn [takewhile dropwhile]. change (N.eqb c_dash c_dash) with true. cbn iota. cbn [length].
    rewrite optional_spec, (eol_cons _ c_dash) by reflexivity.
    assert (m SECTION_RE p (c_dash :: r1) [] Tk = None) as -> by reflexivity.
    rewrite late_key_spec, scan_key_none by (assumption || reflexivity).
    destruct r1 as [|d r1]; [reflexivity|]. cbn [takewhile dropwhile].
    destruct (N.eqb d c_dash); [|reflexivity]. cbn [length Nat.eqb].
    destruct (opt_value _ _); reflexivity. }
  assert (m MULTILINE_FIELD p (c :: r1) [] Tk = None) as ->.
  { unfold MULTILINE_FIELD, lit. rewrite m_cat, m_grp, m_cat, m_chr.
    destruct (N.eqb_spec c c_dash); [congruence|reflexivity]. }
  destruct (N.eqb_spec c c_hash) as [->|Hhash].
  { rewrite section_spec by assumption. cbn zeta.
    destruct (scan_key skey_first _ _ _ _) as [[k [t e]]|]; [reflexivity|].
    cbn [option_map]. rewrite late_key_spec, scan_key_none by (assumption || reflexivity). reflexivity. }
  assert (m SECTION_RE p (c :: r1) [] Tk = None) as ->.
  { unfold SECTION_RE, SECTION_OPERATOR, plus, lit. rewrite !m_cat, m_grp, m_cat, m_chr.
    destruct (N.eqb_spec c c_hash); [congruence|reflexivity]. }
  rewrite late_key_spec by assumption.
  destruct (scan_key key_first _ _ _ _) as [[k [[]]]|]; reflexivity.
Qed.

End S.

Theorem match_scan inp i :
  match_at REGEX inp i
  = option_map (fun '(t, e) => MkMatch i e (encode t)) (scan i (skipn i inp)).
Proof.
  unfold match_at. rewrite regex_scan. destruct (scan i (skipn i inp)) as [[t e]|]; reflexivity.
Qed.

(** * The terminator of multiline fields *)

Lemma m_lits inp s i r g k :
  m inp (lits s) i r g k =
  match strip_prefix s r with Some r' => k (i + length s) r' g | None => None end.
Proof.
  revert i r. induction s as [|c s IH]; intros i r.
  - simpl. now rewrite Nat.add_0_r.
  - destruct s as [|d s].
    + cbn [lits]. unfold lit. rewrite m_chr. destruct r as [|x r]; [reflexivity|].
      cbn [strip_prefix]. rewrite N.eqb_sym. destruct (N.eqb c x); [|reflexivity].
      cbn [length]. now rewrite Nat.add_1_r.
    + change (lits (c :: d :: s)) with (Cat (lit c) (lits (d :: s))).
      rewrite m_cat. unfold lit. rewrite m_chr. destruct r as [|x r]; [reflexivity|].
      rewrite IH. cbn [strip_prefix]. rewrite N.eqb_sym. destruct (N.eqb c x); [|reflexivity].
      replace (i + length (c :: d :: s)) with (S i + length (d :: s)) by (simpl; lia). reflexivity.
Qed.

Definition visible_start (s : text) : Prop := match s with [] => False | c :: _ => hspace c = false end.

Lemma visible_strip s c r : visible_start s -> hspace c = true -> strip_prefix s (c :: r) = None.
Proof.
  intros H Hc. destruct s as [|x s]; [destruct H|]. cbn [strip_prefix].
  destruct (N.eqb_spec x c) as [->|]; [simpl in H; congruence|reflexivity].
Qed.

Lemma terminator_spec inp op key i r :
  visible_start op -> visible_start key ->
  m inp (TERMINATOR op key) i r [] final =
  match r with
  | c :: r' =>
      if N.eqb c nl then
        option_map (fun '(o, k, e) => (e, [(2, k); (1, o)])) (closing_line op key (S i) r')
      else None
  | [] => None
  end.
Proof.
  intros Hop Hkey. unfold TERMINATOR. rewrite m_cat. unfold lit at 1. rewrite m_chr.
  destruct r as [|c r]; [reflexivity|]. destruct (N.eqb c nl); [|reflexivity].
  rewrite m_cat. unfold HS at 1. rewrite star_commit.
  2:{ intros i' d r' Hd. rewrite m_cat, m_grp, m_lits, visible_strip by assumption. reflexivity. }
  fold (spaces r) (after_spaces r). rewrite m_cat, m_grp, m_lits. unfold closing_line.
  destruct (strip_prefix op (after_spaces r)) as [r1|]; [|reflexivity].
  cbn zeta. set (p := S i + spaces r). rewrite m_cat, m_nlook_lit.
  assert (forall i' r' g, m inp (Cat HS EOL) i' r' g final = Tk inp i' r' g) as HT by reflexivity.
  assert (m inp (Cat HS (Cat (Grp 2 (lits key)) (Cat HS EOL))) (p + length op) r1
             [(1, (p, p + length op))] final =
          option_map (fun '(o, k, e) => (e, [(2, k); (1, o)]))
            match strip_prefix key (after_spaces r1) with
            | None => None
            | Some r2 =>
                let e := p + length op + spaces r1 + length key in
                if forallb hspace (line_of r2) then
                  Some ((p, p + length op), (p + length op + spaces r1, e), eol e r2) else None
            end) as Hk.
  { rewrite m_cat. unfold HS at 1. rewrite star_commit.
    2:{ intros i' d r' Hd. rewrite m_cat, m_grp, m_lits, visible_strip by assumption. reflexivity. }
    fold (spaces r1) (after_spaces r1). rewrite m_cat, m_grp, m_lits.
    destruct (strip_prefix key (after_spaces r1)) as [r2|]; [|reflexivity].
    rewrite HT, Tk_spec. cbn zeta. destruct (forallb hspace (line_of r2)); reflexivity. }
  destruct r1 as [|d r1]; [exact Hk|]. destruct (N.eqb d c_dash); [reflexivity|exact Hk].
Qed.

Theorem search_closing inp op key i :
  visible_start op -> visible_start key ->
  search (TERMINATOR op key) inp i =
  option_map (fun '(s, (o, k, e)) => MkMatch s e [(2, k); (1, o)]) (find_closing op key i (skipn i inp)).
Proof.
  intros Hop Hkey. unfold search. generalize (skipn i inp) as r. intro r. revert i.
  induction r as [|c r IH]; intro i; cbn [search_in find_closing]; rewrite terminator_spec by assumption.
  - reflexivity.
  - destruct (N.eqb c nl).
    + destruct (closing_line op key (S i) r) as [[[o k] e]|]; [reflexivity|]. cbn [option_map]. apply IH.
    + apply IH.
Qed.
