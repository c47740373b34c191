(** RegexProofs: lemmas about the backtracking matcher. *)
From Verif Require Import Base Regex.

Section S.
Context (inp : text).
Notation m := (m inp).

Lemma m_eps i r g k : m Eps i r g k = k i r g.
Proof. reflexivity. Qed.
Lemma m_chr p i r g k :
  m (Chr p) i r g k = match r with c :: r' => if p c then k (S i) r' g else None | [] => None end.
Proof. reflexivity. Qed.
Lemma m_cat a b i r g k :
  m (Cat a b) i r g k = m a i r g (fun i' r' g' => m b i' r' g' k).
Proof. reflexivity. Qed.
Lemma m_alt a b i r g k :
  m (Alt a b) i r g k = match m a i r g k with Some x => Some x | None => m b i r g k end.
Proof. reflexivity. Qed.
Lemma m_opt a i r g k :
  m (Opt a) i r g k = match m a i r g k with Some x => Some x | None => k i r g end.
Proof. reflexivity. Qed.
Lemma m_grp n a i r g k :
  m (Grp n a) i r g k = m a i r g (fun i' r' g' => k i' r' ((n, (i, i')) :: g')).
Proof. reflexivity. Qed.
Lemma m_nlook_lit c i r g k :
  m (NLook (lit c)) i r g k =
  match r with
  | d :: _ => if N.eqb d c then None else k i r g
  | [] => k i r g
  end.
Proof. unfold lit. cbn [Regex.m]. destruct r as [|d r]; [reflexivity|]. now destruct (N.eqb d c). Qed.
Lemma m_nlook_pass c i r g k :
  match r with [] => True | d :: _ => N.eqb d c = false end ->
  m (NLook (lit c)) i r g k = k i r g.
Proof. intro H. rewrite m_nlook_lit. destruct r; [reflexivity|]. now rewrite H. Qed.
Lemma m_ref n b e i r g k :
  gget g n = Some (b, e) ->
  m (Ref n) i r g k =
  match strip_prefix (slice inp b e) r with
  | Some r' => k (i + length (slice inp b e)) r' g
  | None => None
  end.
Proof. intro H. cbn [Regex.m]. now rewrite H. Qed.

Lemma m_star_chr p i rest g k :
  m (Star true (Chr p)) i rest g k =
  match rest with
  | c :: rest' =>
      if p c then
        match m (Star true (Chr p)) (S i) rest' g k with Some x => Some x | None => k i rest g end
      else k i rest g
  | [] => k i rest g
  end.
Proof.
  destruct rest as [|c rest']; [reflexivity|].
  cbn [Regex.m length]. destruct (p c); [|reflexivity].
  replace (Nat.eqb (S i) i) with false; [reflexivity|].
  symmetry. apply Nat.eqb_neq. lia.
Qed.

Lemma m_lazy_chr p i rest g k :
  m (Star false (Chr p)) i rest g k =
  match k i rest g with
  | Some x => Some x
  | None =>
      match rest with
      | c :: rest' => if p c then m (Star false (Chr p)) (S i) rest' g k else None
      | [] => None
      end
  end.
Proof.
  destruct rest as [|c rest']; cbn [Regex.m length].
  - now destruct (k i [] g).
  - destruct (k i (c :: rest') g); [reflexivity|].
    destruct (p c); [|reflexivity].
    replace (Nat.eqb (S i) i) with false; [reflexivity|].
    symmetry. apply Nat.eqb_neq. lia.
Qed.

(** A greedy run whose continuation can not start inside the run. *)
Lemma star_commit p i rest g k :
  (forall i' c r, p c = true -> k i' (c :: r) g = None) ->
  m (Star true (Chr p)) i rest g k
  = k (i + length (takewhile p rest)) (dropwhile p rest) g.
Proof.
  intro Hk. revert i. induction rest as [|c r IH]; intro i; rewrite m_star_chr; cbn [takewhile dropwhile].
  - simpl. now rewrite Nat.add_0_r.
  - destruct (p c) eqn:E.
    + rewrite IH. cbn [length]. replace (i + S (length (takewhile p r))) with (S i + length (takewhile p r)) by lia.
      destruct (k (S i + length (takewhile p r)) (dropwhile p r) g) eqn:E2; [reflexivity|].
      now apply Hk.
    + simpl. now rewrite Nat.add_0_r.
Qed.

(** The same when a success of the continuation inside the run implies a success further on. *)
Lemma star_commit_mono p i rest g k :
  (forall i' c r, p c = true -> k (S i') r g = None -> k i' (c :: r) g = None) ->
  m (Star true (Chr p)) i rest g k
  = k (i + length (takewhile p rest)) (dropwhile p rest) g.
Proof.
  intro Hk.
  assert (forall rest i, k (i + length (takewhile p rest)) (dropwhile p rest) g = None ->
                         k i rest g = None) as Hn.
  { clear i rest. induction rest as [|c r IH]; intros i; cbn [takewhile dropwhile].
    - simpl. now rewrite Nat.add_0_r.
    - destruct (p c) eqn:E; [|simpl; now rewrite Nat.add_0_r].
      cbn [length]. rewrite Nat.add_succ_r. intro H. apply Hk; [assumption|]. now apply IH. }
  revert i. induction rest as [|c r IH]; intro i; rewrite m_star_chr; cbn [takewhile dropwhile].
  - simpl. now rewrite Nat.add_0_r.
  - destruct (p c) eqn:E.
    + rewrite IH. cbn [length]. rewrite Nat.add_succ_r. cbn [Nat.add].
      destruct (k (S (i + length (takewhile p r))) (dropwhile p r) g) eqn:E2; [reflexivity|].
      apply Hk; [assumption|]. now apply Hn.
    + simpl. now rewrite Nat.add_0_r.
Qed.

(** A greedy run whose continuation succeeds at its very end. *)
Lemma star_first p i rest g k x :
  k (i + length (takewhile p rest)) (dropwhile p rest) g = Some x ->
  m (Star true (Chr p)) i rest g k = Some x.
Proof.
  revert i. induction rest as [|c r IH]; intros i H; rewrite m_star_chr; cbn [takewhile dropwhile] in *.
  - simpl in H. now rewrite Nat.add_0_r in H.
  - destruct (p c) eqn:E.
    + cbn [length] in H. replace (i + S (length (takewhile p r))) with (S i + length (takewhile p r)) in H by lia.
      now rewrite (IH _ H).
    + simpl in H. now rewrite Nat.add_0_r in H.
Qed.

(** Skipping a prefix of a lazy run on which the continuation fails. *)
Lemma lazy_skip p i pre rest g k :
  forallb p pre = true ->
  (forall a b c, pre = a ++ c :: b -> k (i + length a) (c :: b ++ rest) g = None) ->
  m (Star false (Chr p)) i (pre ++ rest) g k = m (Star false (Chr p)) (i + length pre) rest g k.
Proof.
  revert i. induction pre as [|c pre IH]; intros i Hp Hk.
  - simpl. now rewrite Nat.add_0_r.
  - simpl in Hp. apply andb_true_iff in Hp as [Hc Hp].
    rewrite m_lazy_chr. cbn [app].
    pose proof (Hk [] pre c eq_refl) as H0. simpl in H0. rewrite Nat.add_0_r in H0. rewrite H0, Hc.
    rewrite IH; [cbn [length]; f_equal; lia | assumption |].
    intros a b d E. specialize (Hk (c :: a) b d). cbn [app length] in Hk.
    rewrite Nat.add_succ_r in Hk. apply Hk. now rewrite E.
Qed.

Lemma lazy_now p i rest g k x :
  k i rest g = Some x -> m (Star false (Chr p)) i rest g k = Some x.
Proof. intro H. now rewrite m_lazy_chr, H. Qed.

(** A lazy run whose continuation fails everywhere. *)
Lemma lazy_fail p i rest g k :
  (forall a b, rest = a ++ b -> forallb p a = true -> k (i + length a) b g = None) ->
  m (Star false (Chr p)) i rest g k = None.
Proof.
  revert i. induction rest as [|c r IH]; intros i H; rewrite m_lazy_chr.
  - pose proof (H [] [] eq_refl eq_refl) as H0. simpl in H0. rewrite Nat.add_0_r in H0. now rewrite H0.
  - pose proof (H [] (c :: r) eq_refl eq_refl) as H0. simpl in H0. rewrite Nat.add_0_r in H0. rewrite H0.
    destruct (p c) eqn:E; [|reflexivity].
    apply IH. intros a b Ha Hp. specialize (H (c :: a) b). cbn [app length] in H.
    rewrite Nat.add_succ_r in H. apply H; [now rewrite Ha | simpl; now rewrite E].
Qed.

(** [m] only looks at the continuation pointwise. *)
Lemma m_ext r : forall i rest g k k',
  (forall i rest g, k i rest g = k' i rest g) -> m r i rest g k = m r i rest g k'.
Proof.
  induction r as [|p|a IHa b IHb|a IHa b IHb|gr a IHa|a IHa|n a IHa|n|a IHa|a IHa|];
    intros i rest g k k' H; cbn [Regex.m].
  - apply H.
  - destruct rest as [|c ?]; [reflexivity|]. destruct (p c); [apply H|reflexivity].
  - apply IHa. intros. now apply IHb.
  - rewrite (IHa i rest g k k' H), (IHb i rest g k k' H). reflexivity.
  - destruct gr.
    + generalize (length rest) as n. intro n. revert i rest g.
      induction n as [|n IHn]; intros i rest g; [apply H|].
      rewrite (H i rest g).
      erewrite IHa; [reflexivity|].
      intros i' rest' g'. cbn beta. destruct (Nat.eqb i' i); [reflexivity|]. apply IHn.
    + generalize (length rest) as n. intro n. revert i rest g.
      induction n as [|n IHn]; intros i rest g; rewrite (H i rest g); [reflexivity|].
      destruct (k' i rest g); [reflexivity|].
      apply IHa. intros i' rest' g'. destruct (Nat.eqb i' i); [reflexivity|]. apply IHn.
  - rewrite (IHa i rest g k k' H), (H i rest g). reflexivity.
  - apply IHa. intros. apply H.
  - destruct (gget g n) as [[b e]|]; [|reflexivity].
    destruct (strip_prefix (slice inp b e) rest); [apply H|reflexivity].
  - destruct (m a i rest g _) as [[? ?]|]; [apply H|reflexivity].
  - destruct (m a i rest g _); [reflexivity|apply H].
  - destruct rest as [|c [|? ?]]; try apply H; [|reflexivity]. destruct (N.eqb c nl); [apply H|reflexivity].
Qed.

End S.

Lemma search_at r inp i mo :
  match_at r inp i = Some mo -> search r inp i = Some mo.
Proof.
  unfold match_at, search. intro H.
  destruct (skipn i inp) as [|c l]; cbn [search_in]; destruct (m inp r i _ [] final) as [[e g]|]; congruence.
Qed.

Lemma search_in_start r inp i rest mo :
  search_in r inp i rest = Some mo -> i <= m_start mo <= i + length rest.
Proof.
  revert i. induction rest as [|c l IH]; intro i; cbn [search_in].
  - destruct (m inp r i [] [] final) as [[e g]|]; [|discriminate]. injection 1 as <-. simpl. lia.
  - destruct (m inp r i (c :: l) [] final) as [[e g]|].
    + injection 1 as <-. simpl. lia.
    + intro H. apply IH in H. simpl. lia.
Qed.

(** If the pattern does not match at [i] itself, a search from [i] finds nothing or a later start. *)
Lemma search_not_at r inp i :
  match_at r inp i = None ->
  match search r inp i with Some mo => m_start mo <> i | None => True end.
Proof.
  unfold match_at, search. intro H.
  destruct (skipn i inp) as [|c l]; cbn [search_in];
    destruct (m inp r i _ [] final) as [[e g]|] eqn:E; try discriminate; [exact I|].
  destruct (search_in r inp (S i) l) as [mo|] eqn:E2; [|exact I].
  apply search_in_start in E2. lia.
Qed.
