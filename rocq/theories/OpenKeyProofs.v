(** OpenKeyProofs: what UNTERMINATED_ESCAPED_KEY (errors/parsing.py:7) matches. *)
From Verif Require Import Base Regex Grammar RegexProofs SpecNotice.

Section Star.
  Context (inp : text).
  Notation m := (m inp).

  Lemma star_some p g k x : forall rest i, m (Star true (Chr p)) i rest g k = Some x ->
    exists a b, rest = a ++ b /\ forallb p a = true /\ k (i + length a) b g = Some x.
  Proof.
    induction rest as [|c r IH]; intros i H; rewrite m_star_chr in H.
    - exists [], []. cbn. rewrite Nat.add_0_r. auto.
    - destruct (p c) eqn:E; [destruct (m (Star true (Chr p)) (S i) r g k) as [y|] eqn:E2|].
      + injection H as ->. destruct (IH _ E2) as (a & b & -> & Ha & Hk). exists (c :: a), b. cbn. rewrite E, Ha, Nat.add_succ_r. auto.
      + exists [], (c :: r). cbn. rewrite Nat.add_0_r. auto.
      + exists [], (c :: r). cbn. rewrite Nat.add_0_r. auto.
  Qed.
  Lemma star_none p g k : forall a b i, m (Star true (Chr p)) i (a ++ b) g k = None -> forallb p a = true -> k (i + length a) b g = None.
  Proof.
    induction a as [|c a IH]; intros b i H Ha; rewrite m_star_chr in H; cbn [app length] in *.
    - rewrite Nat.add_0_r. destruct b as [|d b]; [exact H|]. destruct (p d); [|exact H]. now destruct (m (Star true (Chr p)) (S i) b g k).
    - cbn in Ha. apply andb_true_iff in Ha as [Hc Ha]. rewrite Hc in H. destruct (m (Star true (Chr p)) (S i) (a ++ b) g k) eqn:E; [discriminate|].
      rewrite Nat.add_succ_r. exact (IH _ _ E Ha).
  Qed.

  (** characters at which a given text does not begin *)
  Context (tk : text) (bt et : nat) (Htk : slice inp bt et = tk) (Hne : tk <> []).
  Definition past : re := Cat (NLook (Ref 1)) (Chr not_nl).
  Definition begins_not (t : text) : bool := match strip_prefix tk t with Some _ => false | None => true end.
  Lemma m_past i rest g k : gget g 1 = Some (bt, et) ->
    m past i rest g k = match rest with c :: r => if begins_not (c :: r) && not_nl c then k (S i) r g else None | [] => None end.
  Proof.
    intro Hg. unfold past. rewrite m_cat. cbn [Regex.m]. rewrite Hg, Htk. unfold begins_not.
    destruct rest as [|c r]; [destruct (strip_prefix tk []); reflexivity|]. destruct (strip_prefix tk (c :: r)) as [r'|]; reflexivity.
  Qed.
  Lemma m_star_past i rest g k : gget g 1 = Some (bt, et) ->
    m (Star true past) i rest g k =
    match rest with
    | c :: r => if begins_not (c :: r) && not_nl c then match m (Star true past) (S i) r g k with Some x => Some x | None => k i rest g end else k i rest g
    | [] => k i rest g end.
  Proof.
    intro Hg. destruct rest as [|c r]; [reflexivity|]. 
    change (m (Star true past) i (c :: r) g k) with
      (match m past i (c :: r) g (fun i' rest' g' => if Nat.eqb i' i then None else
         (fix loop (n : nat) (i : nat) (rest : text) (g : groups) {struct n} : mres :=
           match n with
           | O => k i rest g
           | S n' =>
               match m past i rest g (fun i' rest' g' => if Nat.eqb i' i then None else loop n' i' rest' g') with
               | Some x => Some x
               | None => k i rest g
               end
           end) (length r) i' rest' g') with Some x => Some x | None => k i (c :: r) g end).
    rewrite (m_past _ _ _ _ Hg). destruct (begins_not (c :: r) && not_nl c); [|reflexivity].
    replace (Nat.eqb (S i) i) with false by (symmetry; apply Nat.eqb_neq; lia). reflexivity.
  Qed.
  Fixpoint clear_of (a b : text) : Prop :=
    match a with [] => True | c :: a' => begins_not (c :: a' ++ b) && not_nl c = true /\ clear_of a' b end.
  Lemma past_some g k x : gget g 1 = Some (bt, et) -> forall rest i, m (Star true past) i rest g k = Some x ->
    exists a b, rest = a ++ b /\ clear_of a b /\ k (i + length a) b g = Some x.
  Proof.
    intro Hg. induction rest as [|c r IH]; intros i H; rewrite (m_star_past _ _ _ _ Hg) in H.
    - exists [], []. cbn. rewrite Nat.add_0_r. auto.
    - destruct (begins_not (c :: r) && not_nl c) eqn:E; [destruct (m (Star true past) (S i) r g k) as [y|] eqn:E2|].
      + injection H as ->. destruct (IH _ E2) as (a & b & -> & Ha & Hk). exists (c :: a), b. cbn [app clear_of length]. rewrite Nat.add_succ_r. auto.
      + exists [], (c :: r). cbn. rewrite Nat.add_0_r. auto.
      + exists [], (c :: r). cbn. rewrite Nat.add_0_r. auto.
  Qed.
  Lemma past_none g k : gget g 1 = Some (bt, et) -> forall a b i, m (Star true past) i (a ++ b) g k = None -> clear_of a b -> k (i + length a) b g = None.
  Proof.
    intro Hg. induction a as [|c a IH]; intros b i H Ha; rewrite (m_star_past _ _ _ _ Hg) in H; cbn [app length] in *.
    - rewrite Nat.add_0_r. destruct b as [|d b]; [exact H|]. destruct (_ && _); [|exact H]. now destruct (m (Star true past) (S i) b g k).
    - destruct Ha as [Hc Ha]. rewrite Hc in H. destruct (m (Star true past) (S i) (a ++ b) g k) eqn:E; [discriminate|].
      rewrite Nat.add_succ_r. exact (IH _ _ E Ha).
  Qed.
  Lemma strip_prefix_some : forall p t r, strip_prefix p t = Some r <-> t = p ++ r.
  Proof.
    induction p as [|x p IH]; intros t r; cbn [strip_prefix app]; [split; congruence|]. destruct t as [|y t]; [split; discriminate|].
    destruct (N.eqb_spec x y) as [->|D]; [rewrite IH; split; congruence|]. split; [discriminate|congruence].
  Qed.
  Lemma begins_not_iff t : begins_not t = true <-> ~ exists r, t = tk ++ r.
  Proof.
    unfold begins_not. destruct (strip_prefix tk t) as [r|] eqn:E.
    - apply strip_prefix_some in E. split; [discriminate|]. intro H. destruct H. eauto.
    - split; [|reflexivity]. intros _ [r H]. apply strip_prefix_some in H. congruence.
  Qed.
  Lemma clear_of_end a : clear_of a [] <-> ~ In nl a /\ ~ exists x y, a = x ++ tk ++ y.
  Proof.
    induction a as [|c a IH]; cbn [clear_of].
    - split; [|auto]. intros _. split; [intros []|]. intros (x & y & E). destruct x; [|discriminate]. destruct tk; [contradiction|discriminate].
    - rewrite app_nil_r, andb_true_iff, begins_not_iff, IH. unfold not_nl. rewrite negb_true_iff, N.eqb_neq. split.
      + intros ((H1 & H2) & H3 & H4). split; [intros [->|H]; auto|]. intros ([|d x] & y & E); [apply H1; eauto|]. injection E as -> E. apply H4. eauto.
      + intros (H1 & H2). split; [split|split].
        * intros [r E]. apply H2. exists [], r. exact E.
        * intros ->. apply H1. now left.
        * intro H. apply H1. now right.
        * intros (x & y & ->). apply H2. now exists (c :: x), y.
  Qed.
End Star.

Lemma lits_repeat c n : forallb (fun x => N.eqb x c) (repeat c n) = true.
Proof. induction n; [reflexivity|]. cbn. now rewrite N.eqb_refl. Qed.
Lemma repeat_lits c t : forallb (fun x => N.eqb x c) t = true -> t = repeat c (length t).
Proof. induction t as [|x t IH]; [reflexivity|]. cbn. intro H. apply andb_true_iff in H as [H1 H2]. apply N.eqb_eq in H1 as ->. now rewrite <- IH. Qed.
Lemma slice_mid (a b c : text) : slice (a ++ b ++ c) (length a) (length a + length b) = b.
Proof. unfold slice. rewrite skipn_app, skipn_all, Nat.sub_diag. cbn [app skipn]. replace (length a + length b - length a) with (length b) by lia. rewrite firstn_app, Nat.sub_diag, firstn_all. now rewrite app_nil_r. Qed.

(** the rest of the pattern, behind the blanks and number signs *)
Definition open_tail : re := Cat (Grp 1 (plus true (lit c_tick))) (Cat (NLook (lit c_tick)) (Cat (Grp 2 (plus true past)) Eos)).
Lemma tail_some inp pre rest g x : inp = pre ++ rest -> ~ In nl rest -> m inp open_tail (length pre) rest g final = Some x ->
  exists n r, rest = repeat tick (S n) ++ r /\ r <> [] /\ ~ (exists u, r = tick :: u) /\ ~ (exists a b, r = a ++ repeat tick (S n) ++ b) /\
    gget (snd x) 1 = Some (length pre, length pre + S n).
Proof.
  intros E Hnl H. unfold open_tail in H. rewrite m_cat, m_grp in H. unfold plus in H. rewrite m_cat in H. unfold lit in H at 1. rewrite m_chr in H.
  destruct rest as [|c t]; [discriminate|]. destruct (N.eqb_spec c c_tick) as [->|]; [|discriminate].
  unfold lit in H at 1. apply star_some in H as (a & r & -> & Ha & H). apply repeat_lits in Ha. set (n := length a) in *.
  rewrite m_cat, m_nlook_lit in H. assert (~ (exists u, r = tick :: u)) as Hr.
  { intros [u ->]. cbn in H. discriminate. }
  set (g1 := (1, (length pre, S (length pre) + n)) :: g) in *.
  assert (m inp (Cat (Grp 2 (Cat past (Star true past))) Eos) (S (length pre) + n) r g1 final = Some x) as H' by (destruct r as [|d r]; [exact H|destruct (N.eqb d c_tick); [discriminate|exact H]]).
  clear H. rewrite m_cat, m_grp, m_cat in H'.
  assert (slice inp (length pre) (S (length pre) + n) = repeat tick (S n)) as Hs.
  { rewrite E. replace (c_tick :: a ++ r) with ((c_tick :: a) ++ r) by reflexivity. replace (S (length pre) + n) with (length pre + length (c_tick :: a)) by (cbn [length]; unfold n; lia).
    rewrite slice_mid. cbn [repeat]. now rewrite Ha at 1. }
  rewrite (m_past inp (repeat tick (S n)) (length pre) (S (length pre) + n) Hs) in H' by reflexivity.
  destruct r as [|d r]; [discriminate|]. destruct (begins_not _ _ && not_nl d) eqn:Eb; [|discriminate].
  apply (past_some inp (repeat tick (S n)) (length pre) (S (length pre) + n) Hs) in H' as (u & v & -> & Hc & H'); [|reflexivity].
  assert (v = []) as ->.
  { cbn [Regex.m] in H'. destruct v as [|w [|w' v]]; [reflexivity| |discriminate]. destruct (N.eqb_spec w nl) as [->|]; [|discriminate].
    exfalso. apply Hnl. right. apply in_or_app. right. right. apply in_or_app. right. now left. }
  rewrite app_nil_r in *. cbn [Regex.m final] in H'. injection H' as <-.
  exists n, (d :: u). split; [cbn [repeat app]; now rewrite Ha at 1|]. split; [discriminate|]. split; [exact Hr|]. split.
  - assert (clear_of (repeat tick (S n)) (d :: u) []) as Hc' by (cbn [clear_of]; rewrite app_nil_r; auto).
    apply (clear_of_end inp _ _ _ Hs) in Hc'; [|discriminate]. apply Hc'.
  - cbn. do 2 f_equal. lia.
Qed.

Lemma tail_none inp pre n r g : inp = pre ++ repeat tick (S n) ++ r -> ~ In nl r -> m inp open_tail (length pre) (repeat tick (S n) ++ r) g final = None ->
  r <> [] -> ~ (exists u, r = tick :: u) -> ~ (exists a b, r = a ++ repeat tick (S n) ++ b) -> False.
Proof.
  intros E Hnl H Hr Ht Hc. unfold open_tail in H. rewrite m_cat, m_grp in H. unfold plus in H. rewrite m_cat in H. unfold lit in H at 1. rewrite m_chr in H.
  cbn [repeat app] in H. change (N.eqb tick c_tick) with true in H. cbv iota in H. unfold lit in H at 1. apply star_none in H; [|apply lits_repeat].
  rewrite m_cat, m_nlook_pass in H.
  2:{ destruct r as [|d r]; [exact I|]. apply N.eqb_neq. intros ->. apply Ht. now exists r. }
  rewrite m_cat, m_grp, m_cat, repeat_length in H.
  assert (slice inp (length pre) (S (length pre) + n) = repeat tick (S n)) as Hs.
  { rewrite E. replace (S (length pre) + n) with (length pre + length (repeat tick (S n))) by (rewrite repeat_length; lia). apply slice_mid. }
  rewrite (m_past inp (repeat tick (S n)) (length pre) (S (length pre) + n) Hs) in H by reflexivity.
  destruct r as [|d r]; [now apply Hr|].
  assert (clear_of (repeat tick (S n)) (d :: r) []) as K by (apply (clear_of_end inp _ _ _ Hs); [discriminate|auto]).
  cbn [clear_of] in K. destruct K as [K1 K2]. rewrite app_nil_r in K1. rewrite K1 in H.
  rewrite <- (app_nil_r r) in H. apply (past_none inp (repeat tick (S n)) (length pre) (S (length pre) + n) Hs) in H; [|reflexivity|exact K2].
  cbn in H. discriminate.
Qed.

Definition open_match (line : text) : option mobj := match_at UNTERMINATED_ESCAPED_KEY line 0.
Lemma open_some line mo : ~ In nl line -> open_match line = Some mo -> exists b e, mspan mo 1 = Some (b, e) /\ leaves_key_open line e.
Proof.
  intros Hnl H. unfold open_match, match_at in H. change (skipn 0 line) with line in H.
  destruct (m line UNTERMINATED_ESCAPED_KEY 0 line [] final) as [[e g]|] eqn:E; [|discriminate]. injection H as <-. unfold mspan. cbn [m_groups].
  unfold UNTERMINATED_ESCAPED_KEY in E. rewrite m_cat in E. unfold SP in E at 1. apply star_some in E as (s1 & t1 & E1 & H1 & E).
  rewrite m_cat in E. unfold lit in E at 1. apply star_some in E as (hs & t2 & E2 & H2 & E). apply repeat_lits in H2. change c_hash with 35%N in H2.
  rewrite m_cat in E. unfold SP in E. apply star_some in E as (s2 & t3 & E3 & H3 & E). subst t2 t1.
  set (pre := s1 ++ hs ++ s2). replace (0 + length s1 + length hs + length s2) with (length pre) in E by (unfold pre; rewrite !app_length; lia).
  assert (line = pre ++ t3) as El by (unfold pre; now rewrite <- !app_assoc).
  assert (~ In nl t3) as Hn3 by (intro K; apply Hnl; rewrite El; apply in_or_app; now right).
  destruct (tail_some line pre t3 [] (e, g) El Hn3 E) as (n & r & -> & Hr & Ht & Hc & Hg). cbn [snd] in Hg.
  eexists _, _. split; [exact Hg|]. exists s1, (length hs), s2, n, r. rewrite <- H2. split; [exact El|]. split; [exact H1|]. split; [exact H3|]. auto 6.
Qed.
Lemma open_none line : ~ In nl line -> open_match line = None -> ~ exists col, leaves_key_open line col.
Proof.
  intros Hnl H (col & s1 & hs & s2 & n & r & El & H1 & H3 & Hr & Ht & Hc & _). unfold open_match, match_at in H. change (skipn 0 line) with line in H.
  destruct (m line UNTERMINATED_ESCAPED_KEY 0 line [] final) as [[e g]|] eqn:E; [discriminate|].
  assert (~ In nl r) as Hn by (intro K; apply Hnl; rewrite El; do 2 (apply in_or_app; right); exact K).
  unfold UNTERMINATED_ESCAPED_KEY in E. rewrite m_cat in E. unfold SP in E at 1.
  replace line with (s1 ++ repeat 35%N hs ++ s2 ++ repeat tick (S n) ++ r) in E at 2 by (rewrite El; now rewrite <- !app_assoc).
  apply star_none in E; [|exact H1]. rewrite m_cat in E. unfold lit in E at 1. apply star_none in E; [|apply lits_repeat].
  rewrite m_cat in E. unfold SP in E. apply star_none in E; [|exact H3].
  replace (0 + length s1 + length (repeat 35%N hs) + length s2) with (length (s1 ++ repeat 35%N hs ++ s2)) in E by (rewrite !app_length; lia).
  exact (tail_none line _ n r [] El Hn E Hr Ht Hc).
Qed.
Lemma open_once line a b : leaves_key_open line a -> leaves_key_open line b -> a = b.
Proof.
  intros (s1 & hs & s2 & n & r & El & H1 & H3 & Hr & Ht & _ & ->) (s1' & hs' & s2' & n' & r' & El' & H1' & H3' & Hr' & Ht' & _ & ->).
  assert (forall s k u, forallb is_space s = true -> forallb is_space u = true -> Forall (fun c => c <> tick) (s ++ repeat 35%N k ++ u)) as F.
  { intros s k u Hs Hu. rewrite !Forall_app, !Forall_forall. rewrite forallb_forall in Hs, Hu. repeat split.
    - intros c Hc ->. apply Hs in Hc. discriminate.
    - intros c Hc. apply repeat_spec in Hc as ->. discriminate.
    - intros c Hc ->. apply Hu in Hc. discriminate. }
  specialize (F s1 hs s2 H1 H3) as F1. specialize (F s1' hs' s2' H1' H3') as F2.
  set (p := s1 ++ repeat 35%N hs ++ s2) in *. set (p' := s1' ++ repeat 35%N hs' ++ s2') in *. rewrite El in El'. clearbody p p'. clear - El' F1 F2 Ht Ht'.
  revert p' El' F2. induction p as [|c p IH]; intros [|c' p'] E F2; cbn [app length Nat.add repeat] in E |- *.
  - f_equal. injection E as E. revert n' E. induction n as [|n IH]; intros [|n'] E; cbn [repeat app] in E; [reflexivity|..].
    + subst r. destruct Ht. eauto.
    + subst r'. destruct Ht'. eauto.
    + f_equal. apply IH. now injection E.
  - injection E as <- _. inversion F2; congruence.
  - injection E as -> _. inversion F1; congruence.
  - injection E as _ E. inversion F1; inversion F2; subst. f_equal. apply IH; auto.
Qed.
