(** ReportProofs: completing the tags of a snippet, and escaping (for C43, C44). *)
From Verif Require Import Base Types Reporter SpecReport.

Definition tagb (s : list (option tag)) (k : nat) : bool :=
  match nth_error s k with Some (Some _) => true | _ => false end.

Lemma tagb_spec s k : tagb s k = true <-> tagged s k.
Proof.
  unfold tagb, tagged. destruct (nth_error s k) as [[t|]|]; split; intro H; try discriminate.
  - eexists; reflexivity.
  - reflexivity.
  - destruct H; discriminate.
  - destruct H; discriminate.
Qed.
Lemma tagb_false s k : tagb s k = false <-> ~ tagged s k.
Proof. rewrite <- tagb_spec. destruct (tagb s k); split; congruence. Qed.

Lemma tagb_lt s k : tagb s k = true -> k < length s.
Proof. unfold tagb. intro H. apply nth_error_Some. destruct (nth_error s k); congruence. Qed.

Definition nearb (s : list (option tag)) (j : nat) : bool :=
  tagb s (j + 2) || (Nat.ltb 2 j && tagb s (j - 2)) || tagb s (j + 1) || (Nat.ltb 1 j && tagb s (j - 1)).

Definition fin (s : list (option tag)) (j : nat) : option tag :=
  match nth_error s j with
  | Some (Some t) => Some t
  | _ => if nearb s j then Some DISPLAY else if tagb s (j + 3) then Some OMISSION else None
  end.

Definition all_reported (s : list (option tag)) : Prop := forall k t, nth_error s k = Some (Some t) -> reported t.

Lemma shown_tagb s k : all_reported s -> shown s k = tagb s k.
Proof.
  intro H. unfold shown, tagb. destruct (nth_error s k) as [[t|]|] eqn:E; try reflexivity.
  apply H in E. destruct E as [-> |[-> | ->]]; reflexivity.
Qed.

Lemma nth_error_upd_eq {A} (l : list A) i f x : nth_error l i = Some x -> nth_error (upd l i f) i = Some (f x).
Proof. revert i. induction l as [|a l IH]; intros [|i] H; cbn in *; try discriminate; [congruence|]. now apply IH. Qed.
Lemma nth_error_upd_neq {A} (l : list A) i j f : i <> j -> nth_error (upd l i f) j = nth_error l j.
Proof. revert i j. induction l as [|a l IH]; intros [|i] [|j] H; cbn; try reflexivity; try congruence. now apply IH; lia. Qed.
Lemma length_upd {A} (l : list A) i f : length (upd l i f) = length l.
Proof. revert i. induction l as [|a l IH]; intros [|i]; cbn; try reflexivity. now rewrite IH. Qed.

(** after handling the first [m] lines *)
Definition done_upto (s x : list (option tag)) (m : nat) : Prop :=
  length x = length s /\
  forall j, j < length s -> nth_error x j = if Nat.ltb j m then Some (fin s j) else nth_error s j.

Lemma complete_line_length lc s m : length (complete_line lc s m) = length s.
Proof.
  unfold complete_line. destruct (nth_error s m) as [[t|]|]; try reflexivity.
  destruct (_ || _); [apply length_upd|]. destruct (_ && _); [apply length_upd|reflexivity].
Qed.

Lemma shown_ahead s x m k : all_reported s -> done_upto s x m -> m <= k ->
  (Nat.ltb k (length s) && shown x k)%bool = tagb s k.
Proof.
  intros R [L D] Hk. destruct (Nat.ltb_spec k (length s)) as [Hl|Hl]; cbn [andb].
  - rewrite <- shown_tagb by exact R. unfold shown. rewrite D by exact Hl.
    destruct (Nat.ltb_spec k m); [lia|reflexivity].
  - symmetry. destruct (tagb s k) eqn:E; [apply tagb_lt in E; lia|reflexivity].
Qed.

Lemma shown_behind s x m k : all_reported s -> done_upto s x m -> k < m -> k < length s ->
  shown x k = (tagb s k || (negb (nearb s k) && tagb s (k + 3)))%bool.
Proof.
  intros R [L D] Hk Hl. unfold shown. rewrite D by exact Hl.
  destruct (Nat.ltb_spec k m); [|lia]. unfold fin.
  assert (T : tagb s k = match nth_error s k with Some (Some _) => true | _ => false end) by reflexivity.
  rewrite T. destruct (nth_error s k) as [[t|]|] eqn:E.
  - apply R in E. destruct E as [-> |[-> | ->]]; reflexivity.
  - destruct (nearb s k); [reflexivity|]. cbn [negb andb orb]. destruct (tagb s (k + 3)); reflexivity.
  - apply nth_error_None in E. lia.
Qed.

Lemma complete_line_done s x m : all_reported s -> m < length s -> done_upto s x m ->
  done_upto s (complete_line (length s) x m) (S m).
Proof.
  intros R Hm D. destruct D as [L DD]. assert (D : done_upto s x m) by (split; assumption).
  split. { now rewrite complete_line_length. }
  intros j Hj. unfold complete_line.
  assert (X : nth_error x m = nth_error s m).
  { rewrite DD by exact Hm. now rewrite Nat.ltb_irrefl. }
  assert (other : forall y, j <> m -> nth_error y j = nth_error x j ->
    nth_error y j = (if Nat.ltb j (S m) then Some (fin s j) else nth_error s j)).
  { intros y n E. rewrite E, DD by exact Hj.
    destruct (Nat.ltb_spec j m), (Nat.ltb_spec j (S m)); try reflexivity; lia. }
  rewrite X. destruct (nth_error s m) as [[t|]|] eqn:E.
  - destruct (Nat.eq_dec j m) as [->|n]; [|now apply other].
    rewrite X. destruct (Nat.ltb_spec m (S m)); [|lia]. unfold fin. now rewrite E.
  - rewrite (shown_ahead s x m (m + 2)) by (try assumption; lia).
    rewrite (shown_ahead s x m (m + 1)) by (try assumption; lia).
    rewrite (shown_ahead s x m (m + 3)) by (try assumption; lia).
    assert (G : (tagb s (m + 2) || (Nat.ltb 2 m && shown x (m - 2)) || tagb s (m + 1) ||
                 (Nat.ltb 1 m && shown x (m - 1)))%bool = nearb s m).
    { unfold nearb.
      destruct (Nat.ltb_spec 1 m); cbn [andb].
      2:{ destruct (Nat.ltb_spec 2 m); [lia|]. reflexivity. }
      rewrite (shown_behind s x m (m - 1)) by (try assumption; lia).
      replace (m - 1 + 3) with (m + 2) by lia.
      destruct (Nat.ltb_spec 2 m); cbn [andb].
      + rewrite (shown_behind s x m (m - 2)) by (try assumption; lia).
        replace (m - 2 + 3) with (m + 1) by lia.
        destruct (tagb s (m + 2)), (tagb s (m + 1)), (tagb s (m - 2)), (tagb s (m - 1)); cbn;
          try reflexivity; rewrite ?andb_false_r; try reflexivity;
          destruct (nearb s (m - 2)); reflexivity.
      + destruct (tagb s (m + 2)), (tagb s (m + 1)), (tagb s (m - 1)); cbn;
          rewrite ?andb_false_r; try reflexivity; destruct (nearb s (m - 1)); reflexivity. }
    rewrite G. clear G.
    destruct (Nat.eq_dec j m) as [->|n].
    + destruct (Nat.ltb_spec m (S m)); [|lia]. unfold fin. rewrite E.
      destruct (nearb s m); [now rewrite (nth_error_upd_eq _ _ _ None X)|].
      destruct (tagb s (m + 3)); [now rewrite (nth_error_upd_eq _ _ _ None X)|exact X].
    + apply other; [exact n|]. destruct (nearb s m); [apply nth_error_upd_neq; lia|].
      destruct (tagb s (m + 3)); [apply nth_error_upd_neq; lia|reflexivity].
  - apply nth_error_None in E. lia.
Qed.

Lemma complete_fold s : all_reported s -> forall k m x, m + k = length s -> done_upto s x m ->
  done_upto s (fold_left (complete_line (length s)) (seq m k) x) (length s).
Proof.
  intro R. induction k as [|k IH]; intros m x Hm D; cbn [seq fold_left].
  - replace (length s) with m by lia. exact D.
  - apply IH; [lia|]. apply complete_line_done; [exact R|lia|exact D].
Qed.

Lemma nearb_spec s j : ~ tagged s j -> (nearb s j = true <-> close_enough s j).
Proof.
  intro Hn. unfold nearb, close_enough. rewrite !orb_true_iff, !andb_true_iff, !Nat.ltb_lt, !tagb_spec. split.
  - intros [[[H|[H0 H]]|H]|[H0 H]]; (eexists; split; [exact H|lia]).
  - intros (k & H & H1 & H2 & H3).
    assert (C : k = j + 2 \/ k = j + 1 \/ k = j \/ k = j - 1 /\ 1 < j \/ k = j - 2 /\ 2 < j) by lia.
    destruct C as [-> |[-> |[-> |[[-> ?]|[-> ?]]]]]; tauto.
Qed.

Lemma rev_last {A} (l : list A) x r : rev l = x :: r -> nth_error l (length l - 1) = Some x /\ 0 < length l.
Proof.
  intro H. assert (E : l = rev r ++ [x]). { rewrite <- (rev_involutive l), H. reflexivity. }
  subst l. rewrite app_length. cbn [length]. split; [|lia].
  replace (length (rev r) + 1 - 1) with (length (rev r)) by lia.
  rewrite nth_error_app2, Nat.sub_diag by lia. reflexivity.
Qed.

Lemma complete_fin s : all_reported s -> (exists k, tagged s k) ->
  exists s', complete (length s) s = Ok s' /\ context_shown (close_enough s) s s'.
Proof.
  intros R [k0 K0].
  assert (D : done_upto s (fold_left (complete_line (length s)) (seq 0 (length s)) s) (length s)).
  { apply complete_fold; [exact R|reflexivity|]. split; reflexivity. }
  unfold complete.
  assert (NB : forallb (fun t => negb (opt_is t)) s = false).
  { destruct K0 as [t K0]. apply nth_error_In in K0.
    destruct (forallb _ s) eqn:E; [|reflexivity]. rewrite forallb_forall in E. now specialize (E _ K0). }
  rewrite NB. set (x := fold_left (complete_line (length s)) (seq 0 (length s)) s) in *. destruct D as [L D].
  assert (Hlen : 0 < length s). { apply tagb_spec, tagb_lt in K0. lia. }
  assert (Dx : forall j, j < length s -> nth_error x j = Some (fin s j)).
  { intros j Hj. rewrite D by exact Hj. destruct (Nat.ltb_spec j (length s)); [reflexivity|lia]. }
  assert (core : forall j, j < length s ->
    (forall t, nth_error s j = Some (Some t) -> fin s j = Some t) /\
    (~ tagged s j -> close_enough s j -> fin s j = Some DISPLAY) /\
    (~ tagged s j -> ~ close_enough s j -> before_gap s j -> fin s j = Some OMISSION) /\
    (~ tagged s j -> ~ close_enough s j -> ~ before_gap s j -> fin s j = None)).
  { intros j Hj. unfold fin, before_gap.
    assert (NT : ~ tagged s j -> match nth_error s j with
      | Some (Some t) => Some t
      | _ => if nearb s j then Some DISPLAY else if tagb s (j + 3) then Some OMISSION else None
      end = if nearb s j then Some DISPLAY else if tagb s (j + 3) then Some OMISSION else None).
    { intro H. destruct (nth_error s j) as [[t|]|] eqn:E; try reflexivity. destruct H. now exists t. }
    split; [intros t ->; reflexivity|]. split; [|split].
    - intros H C. rewrite NT by exact H. apply nearb_spec in C; [now rewrite C|exact H].
    - intros H C G. rewrite NT by exact H. apply tagb_spec in G. rewrite G.
      destruct (nearb s j) eqn:E; [apply nearb_spec in E; [contradiction|exact H]|reflexivity].
    - intros H C G. rewrite NT by exact H. apply tagb_false in G. rewrite G.
      destruct (nearb s j) eqn:E; [apply nearb_spec in E; [contradiction|exact H]|reflexivity]. }
  destruct (rev x) as [|[t|] r] eqn:E.
  - apply (f_equal (@length _)) in E. rewrite rev_length in E. cbn in E. lia.
  - apply rev_last in E. destruct E as [E _]. exists x. split; [reflexivity|]. split; [exact L|].
    intros j Hj. rewrite Dx by exact Hj. destruct (core j Hj) as (A & B & C & F).
    split; [intros u Hu; now rewrite (A u Hu)|]. split; [intros; now rewrite B|].
    assert (La : S j = length s -> fin s j = Some t).
    { intro S. assert (X : j = length x - 1) by lia. rewrite <- X in E.
      specialize (Dx j Hj). congruence. }
    split.
    + intros H1 H2 [G|G]; [now rewrite C|].
      rewrite (F H1 H2) in La; [now specialize (La G)|].
      intro Q. apply tagb_spec, tagb_lt in Q. lia.
    + intros H1 H2 H3 H4. now rewrite F.
  - apply rev_last in E. destruct E as [E _]. eexists. split; [reflexivity|]. split; [now rewrite length_upd|].
    intros j Hj. destruct (core j Hj) as (A & B & C & F).
    destruct (Nat.eq_dec (length x - 1) j) as [<-|n].
    + assert (Q : fin s (length x - 1) = None) by (specialize (Dx _ Hj); congruence).
      rewrite (nth_error_upd_eq _ _ _ None) by exact E.
      split; [intros t Ht; now rewrite (A t Ht) in Q|]. split; [intros H1 H2; now rewrite B in Q|].
      split; [reflexivity|]. intros ? ? ? N. lia.
    + rewrite nth_error_upd_neq by exact n. rewrite Dx by exact Hj.
      split; [intros u Hu; now rewrite (A u Hu)|]. split; [intros; now rewrite B|]. split.
      * intros H1 H2 [G|G]; [now rewrite C|lia].
      * intros H1 H2 H3 H4. now rewrite F.
Qed.

Lemma complete_nothing s : (forall k, ~ tagged s k) ->
  complete (length s) s = Ok (repeat (Some QUESTION) (length s)).
Proof.
  intro H. unfold complete.
  assert (NB : forallb (fun t => negb (opt_is t)) s = true).
  { apply forallb_forall. intros [t|] Hi; [|reflexivity]. apply In_nth_error in Hi. destruct Hi as [k K].
    destruct (H k). now exists t. }
  rewrite NB. f_equal. clear. induction s; cbn; congruence.
Qed.

(** ** Escaping *)

Lemma escape_char_inert c : inert (escape_char c).
Proof.
  intros x. unfold escape_char.
  destruct (N.eqb_spec c 38); [cbn; intuition (subst; discriminate)|].
  destruct (N.eqb_spec c 60); [cbn; intuition (subst; discriminate)|].
  destruct (N.eqb_spec c 62); [cbn; intuition (subst; discriminate)|].
  destruct (N.eqb_spec c 34); [cbn; intuition (subst; discriminate)|].
  destruct (N.eqb_spec c 39); [cbn; intuition (subst; discriminate)|].
  cbn. intros [<-|[]]. auto.
Qed.

Lemma escape_inert s : inert (escape s).
Proof.
  intros c H. unfold escape in H. apply in_flat_map in H. destruct H as (x & _ & H).
  exact (escape_char_inert x c H).
Qed.

Lemma starts_other p c t : (c =? 38)%N = false -> hd_error p = Some 38%N -> starts p (c :: t) = false.
Proof.
  intros H Hp. destruct p as [|x p]; [discriminate|]. injection Hp as ->.
  unfold starts. cbn [length firstn text_eqb]. cbn. now rewrite H.
Qed.

Lemma unescape_step f c r : unescape (S f) (escape_char c ++ r) = c :: unescape f r.
Proof.
  unfold escape_char.
  destruct (N.eqb_spec c 38) as [->|n1]; [reflexivity|].
  destruct (N.eqb_spec c 60) as [->|n2]; [reflexivity|].
  destruct (N.eqb_spec c 62) as [->|n3]; [reflexivity|].
  destruct (N.eqb_spec c 34) as [->|n4]; [reflexivity|].
  destruct (N.eqb_spec c 39) as [->|n5]; [reflexivity|].
  change ([c] ++ r) with (c :: r). cbn [unescape].
  apply N.eqb_neq in n1. rewrite !starts_other by (try exact n1; reflexivity). reflexivity.
Qed.

Lemma unescape_escape s : forall fuel, length s <= fuel -> unescape fuel (escape s) = s.
Proof.
  induction s as [|c s IH]; intros [|fuel] H; cbn in H; try lia; try reflexivity.
  change (escape (c :: s)) with (escape_char c ++ escape s). rewrite unescape_step, IH by lia. reflexivity.
Qed.

(** the characters of markup that matter *)
Lemma markup_app a b : markup (a ++ b) = markup a ++ markup b.
Proof. apply filter_app. Qed.
Lemma markup_inert t : inert t -> markup t = [].
Proof.
  induction t as [|c t IH]; intro H; [reflexivity|]. cbn.
  destruct (H c (or_introl eq_refl)) as (A & B & C & D).
  unfold markup_char. apply N.eqb_neq in A, B, C, D. rewrite A, B, C, D. cbn.
  apply IH. intros x Hx. apply H. now right.
Qed.

Lemma html_markup_chars g c1 c2 k : markup (html_markup g c1 k) = markup (html_markup g c2 k).
Proof.
  unfold html_markup. rewrite !markup_app. now rewrite !(markup_inert (escape _)) by apply escape_inert.
Qed.

Lemma bind_inv {A B} (x : res A) (f : A -> res B) y : bind x f = Ok y -> exists a, x = Ok a /\ f a = Ok y.
Proof. destruct x; cbn; intro H; [eauto|discriminate]. Qed.

Lemma ok_inv {A} (a b : A) : Ok a = Ok b -> b = a. Proof. congruence. Qed.

Lemma html_line_chars r1 r2 line t a b : html_line r1 line t = Ok a -> html_line r2 line t = Ok b ->
  markup a = markup b.
Proof.
  unfold html_line. intros H1 H2. destruct t;
    try (apply bind_inv in H1; destruct H1 as (x & _ & H1); apply bind_inv in H2; destruct H2 as (y & _ & H2));
    injection H1 as <-; injection H2 as <-; try apply html_markup_chars; reflexivity.
Qed.

Lemma print_lines_chars r1 r2 : forall s line a b,
  print_lines (html_line r1) line s = Ok a -> print_lines (html_line r2) line s = Ok b ->
  map markup a = map markup b.
Proof.
  induction s as [|[t|] s IH]; intros line a b H1 H2; cbn [print_lines] in *.
  - injection H1 as <-. injection H2 as <-. reflexivity.
  - apply bind_inv in H1. destruct H1 as (x & X & H1). apply bind_inv in H1. destruct H1 as (xs & Xs & H1).
    apply bind_inv in H2. destruct H2 as (y & Y & H2). apply bind_inv in H2. destruct H2 as (ys & Ys & H2).
    injection H1 as <-. injection H2 as <-. cbn [map].
    now rewrite (html_line_chars _ _ _ _ _ _ X Y), (IH _ _ _ Xs Ys).
  - eapply IH; eassumption.
Qed.

Lemma markup_join sep : forall l, markup (join sep l) = join (markup sep) (map markup l).
Proof.
  induction l as [|a [|b l] IH]; [reflexivity|reflexivity|].
  cbn [map]. change (join sep (a :: b :: l)) with (a ++ sep ++ join sep (b :: l)).
  rewrite !markup_app, IH. reflexivity.
Qed.

Lemma html_chars r1 r2 t1 t2 :
  c_reporter (r_ctx r1) = HtmlReporter -> c_reporter (r_ctx r2) = HtmlReporter ->
  c_locale (r_ctx r1) = c_locale (r_ctx r2) -> c_source (r_ctx r1) = c_source (r_ctx r2) ->
  c_line_count (r_ctx r1) = c_line_count (r_ctx r2) -> r_snip r1 = r_snip r2 ->
  snippet r1 = Ok t1 -> snippet r2 = Ok t2 -> markup t1 = markup t2.
Proof.
  intros K1 K2 L S N T H1 H2. unfold snippet in *. rewrite N, T in H1.
  apply bind_inv in H1. destruct H1 as (s1 & E1 & H1). apply bind_inv in H2. destruct H2 as (s2 & E2 & H2).
  rewrite E1 in E2. injection E2 as <-.
  unfold print in *. cbn [r_ctx with_snip r_snip] in *. rewrite K1 in H1. rewrite K2 in H2.
  apply bind_inv in H1. destruct H1 as (a & A & H1). apply bind_inv in H2. destruct H2 as (b & B & H2).
  pose proof (print_lines_chars _ _ _ _ _ _ A B) as E.
  rewrite L, S in H1.
  destruct (c_source (r_ctx r2)) as [[|x s]|]; apply ok_inv in H1; apply ok_inv in H2; subst t1 t2;
    cbv zeta; rewrite !markup_app, !markup_join, E; reflexivity.
Qed.
