(** LayoutProofs: completing the marks of a report, and its rows. *)
From Verif Require Import Base Types Messages SpecText Reporter Errors ReporterFacts ReporterTags ParseOutcome SpecDraw ReporterFree DrawProofs SpecMarks.

Definition markb (s : snip) (j : nat) : bool := match nth_error s j with Some (Some _) => true | _ => false end.
Definition nearb (s : snip) (j : nat) : bool := markb s (j + 2) || (Nat.ltb 2 j && markb s (j - 2)) || markb s (j + 1) || (Nat.ltb 1 j && markb s (j - 1)).
(** marks made by reports *)
Definition proper (s : snip) : Prop := forall j t, nth_error s j = Some (Some t) -> t <> DISPLAY /\ t <> OMISSION.
Definition pass (s : snip) (j : nat) : option tag :=
  match nth j s None with Some t => Some t | None => if nearb s j then Some DISPLAY else if markb s (j + 3) then Some OMISSION else None end.

Lemma markb_over s j : length s <= j -> markb s j = false.
Proof. intro H. unfold markb. now rewrite (proj2 (nth_error_None s j) H). Qed.
Lemma nth_error_get {A} (s : list A) j d : j < length s -> nth_error s j = Some (nth j s d).
Proof. intro H. apply nth_error_nth'. assumption. Qed.

Section Complete.
  Context (s : snip) (HP : proper s).
  Local Notation lc := (length s).

  Lemma shown_later s' j : nth_error s' j = nth_error s j -> shown s' j = markb s j.
  Proof.
    intro E. unfold shown, markb. rewrite E. destruct (nth_error s j) as [[t|]|] eqn:En; try reflexivity. destruct (HP j t En) as [H _]. destruct t; try reflexivity. congruence.
  Qed.
  Lemma shown_pass s' j : j < lc -> nth_error s' j = Some (pass s j) -> shown s' j = markb s j || (negb (nearb s j) && markb s (j + 3)).
  Proof.
    intros Hj E. unfold shown. rewrite E. unfold pass. assert (nth_error s j = Some (nth j s None)) as En by now apply nth_error_get.
    unfold markb at 2. rewrite En. destruct (nth j s None) as [t|] eqn:Et.
    - destruct (HP j t En) as [H _]. destruct t; try reflexivity. congruence.
    - destruct (nearb s j); [reflexivity|]. destruct (markb s (j + 3)); reflexivity.
  Qed.
  Lemma fold_pass n : n <= lc -> let s' := fold_left (complete_line lc) (seq 0 n) s in
    length s' = lc /\ forall j, j < lc -> nth_error s' j = Some (if Nat.ltb j n then pass s j else nth j s None).
  Proof.
    induction n as [|n IH]; intro Hn; cbv zeta.
    - cbn. split; [reflexivity|]. intros j Hj. now apply nth_error_get.
    - specialize (IH ltac:(lia)). cbv zeta in IH. destruct IH as [IL IN]. rewrite seq_S, fold_left_app. cbn [fold_left plus]. set (s' := fold_left _ _ _) in *.
      pose proof (IN n ltac:(lia)) as En. rewrite Nat.ltb_irrefl in En.
      assert (forall s2, length s2 = lc -> (forall j, nth_error s2 j = if Nat.eqb n j then Some (pass s n) else nth_error s' j) ->
        length s2 = lc /\ forall j, j < lc -> nth_error s2 j = Some (if Nat.ltb j (S n) then pass s j else nth j s None)) as K.
      { intros s2 L2 N2. split; [assumption|]. intros j Hj. rewrite N2. destruct (Nat.eqb_spec n j) as [->|Hne].
        - now rewrite (proj2 (Nat.ltb_lt j (S j))) by lia.
        - rewrite IN by assumption. destruct (Nat.ltb_spec j n), (Nat.ltb_spec j (S n)); try reflexivity; lia. }
      assert (forall x, Some (pass s n) = x -> forall s2, s2 = s' -> nth_error s' n = x -> length s2 = lc /\ (forall j, nth_error s2 j = if Nat.eqb n j then Some (pass s n) else nth_error s' j)) as Ksame.
      { intros x Ex s2 -> E2. split; [assumption|]. intro j. destruct (Nat.eqb_spec n j) as [<-|]; [congruence|reflexivity]. }
      unfold complete_line. rewrite En. unfold pass. destruct (nth n s None) as [t|] eqn:Et.
      + apply K; apply (Ksame (Some (Some t))); auto; unfold pass; now rewrite Et.
      + assert (forall k, shown s' (n + S k) = markb s (n + S k)) as Kl.
        { intro k. apply shown_later. destruct (Nat.lt_ge_cases (n + S k) lc) as [Hl|Hl].
          - rewrite IN by assumption. destruct (Nat.ltb_spec (n + S k) n); [lia|]. symmetry. now apply nth_error_get.
          - rewrite !(proj2 (nth_error_None _ _)); [reflexivity|lia|lia]. }
        assert (forall k, 0 < k <= n -> shown s' (n - k) = markb s (n - k) || (negb (nearb s (n - k)) && markb s (n - k + 3))) as Ke.
        { intros k Hk. apply shown_pass; [lia|]. rewrite IN by lia. now rewrite (proj2 (Nat.ltb_lt _ _)) by lia. }
        assert (forall k, Nat.ltb (n + S k) lc && shown s' (n + S k) = markb s (n + S k)) as Kb.
        { intro k. rewrite Kl. destruct (Nat.ltb_spec (n + S k) lc); [reflexivity|]. symmetry. now apply markb_over. }
        rewrite (Kb 1), (Kb 0), (Kb 2).
        assert (markb s (n + 2) || (2 <? n) && shown s' (n - 2) || markb s (n + 1) || (1 <? n) && shown s' (n - 1) = nearb s n) as Eb.
        { unfold nearb. destruct (Nat.ltb_spec 2 n) as [H2|H2], (Nat.ltb_spec 1 n) as [H1|H1]; try lia; cbn [andb].
          - rewrite (Ke 2), (Ke 1) by lia. replace (n - 2 + 3) with (n + 1) by lia. replace (n - 1 + 3) with (n + 2) by lia.
            destruct (markb s (n + 2)), (markb s (n - 2)), (markb s (n + 1)), (markb s (n - 1)), (nearb s (n - 1)), (nearb s (n - 2)); reflexivity.
          - rewrite (Ke 1) by lia. replace (n - 1 + 3) with (n + 2) by lia. destruct (markb s (n + 2)), (markb s (n + 1)), (markb s (n - 1)), (nearb s (n - 1)); reflexivity.
          - reflexivity. }
        rewrite Eb. unfold pass in K, Ksame. rewrite Et in *.
        assert (forall x, Some x = (if nearb s n then Some DISPLAY else if markb s (n + 3) then Some OMISSION else None) -> let s2 := upd s' n (fun _ => Some x) in
           length s2 = lc /\ (forall j, nth_error s2 j = if Nat.eqb n j then Some (if nearb s n then Some DISPLAY else if markb s (n + 3) then Some OMISSION else None) else nth_error s' j)) as Kupd.
        { intros x Ex. cbv zeta. rewrite upd_length. split; [assumption|]. intro j. rewrite nth_upd. rewrite <- Ex. destruct (Nat.eqb_spec n j) as [<-|]; [|reflexivity]. now rewrite En. }
        destruct (nearb s n); [apply K; apply (Kupd DISPLAY eq_refl)|]. destruct (markb s (n + 3)); [apply K; apply (Kupd OMISSION eq_refl)|]. apply K; apply (Ksame (Some None)); auto.
  Qed.

  Lemma complete_spec s' : complete lc s = Ok s' -> length s' = lc /\
    ((forall j, markb s j = false) /\ (forall j, j < lc -> nth_error s' j = Some (Some QUESTION)) \/
     (exists j, markb s j = true) /\ forall j, j < lc -> nth_error s' j = Some (match pass s j with Some t => Some t | None => if Nat.eqb (j + 1) lc then Some OMISSION else None end)).
  Proof.
    unfold complete. destruct (forallb (fun t => negb (opt_is t)) s) eqn:Ea.
    - intros [= <-]. rewrite map_length. split; [reflexivity|]. left. rewrite forallb_forall in Ea. split.
      + intro j. unfold markb. destruct (nth_error s j) as [[t|]|] eqn:E; try reflexivity. apply nth_error_In in E. apply Ea in E. discriminate.
      + intros j Hj. rewrite nth_error_map, (nth_error_get s j None Hj). reflexivity.
    - destruct (fold_pass lc ltac:(lia)) as [L N]. set (s1 := fold_left _ _ _) in *. intro H.
      assert (exists j, markb s j = true) as Hex.
      { clear - Ea. induction s as [|[t|] l IH]; [discriminate|exists 0; reflexivity|]. cbn in Ea. destruct (IH Ea) as [j Hj]. exists (S j). exact Hj. }
      assert (forall j, j < lc -> nth_error s1 j = Some (pass s j)) as N' by (intros j Hj; rewrite N by assumption; now rewrite (proj2 (Nat.ltb_lt j lc) Hj)).
      destruct (rev s1) as [|x l] eqn:Er; [discriminate|].
      assert (s1 = rev l ++ [x]) as El by (rewrite <- (rev_involutive s1), Er; reflexivity).
      assert (length s1 = S (length l)) as Lx by (rewrite El, app_length, rev_length; cbn; lia).
      assert (nth_error s1 (length l) = Some x) as Ex by (rewrite El, nth_error_app2 by (rewrite rev_length; lia); rewrite rev_length, Nat.sub_diag; reflexivity).
      assert (pass s (length l) = x) as Ep by (rewrite N' in Ex by lia; congruence).
      destruct x as [t|]; injection H as <-.
      + split; [assumption|]. right. split; [assumption|]. intros j Hj. rewrite N' by assumption. destruct (pass s j) as [t'|] eqn:E; [reflexivity|].
        destruct (Nat.eqb_spec (j + 1) lc); [|reflexivity]. replace j with (length l) in E by lia. congruence.
      + rewrite upd_length. split; [assumption|]. right. split; [assumption|]. intros j Hj. rewrite nth_upd, N' by assumption. rewrite Lx. replace (S (length l) - 1) with (length l) by lia.
        destruct (Nat.eqb_spec (length l) j) as [<-|Hne].
        * rewrite Ep. cbn [option_map]. now rewrite (proj2 (Nat.eqb_eq _ _)) by lia.
        * destruct (pass s j); [reflexivity|]. destruct (Nat.eqb_spec (j + 1) lc); [lia|reflexivity].
  Qed.
End Complete.

(** * Rows *)

(** the marks of [s] are those of [mk] *)
Definition marks_are (s : snip) (mk : nat -> mark -> Prop) : Prop :=
  forall j, match nth_error s j with Some (Some t) => mk j (mark_of t) | _ => forall m, ~ mk j m end.

Lemma draw_cells f : forall s k ws, draw f k s = Ok ws -> exists cells, length cells = length s /\ ws = concat cells /\
  forall j, j < length s -> match nth j s None with None => nth j cells [] = [] | Some t => exists w, f (k + j) t = Ok w /\ nth j cells [] = [w] end.
Proof.
  induction s as [|[t|] s IH]; intros k ws; cbn [draw].
  - intros [= <-]. exists []. split; [reflexivity|]. split; [reflexivity|]. intros j Hj. cbn in Hj. lia.
  - intro E. apply bind_ok in E as (x & Ex & E). apply bind_ok in E as (xs & Exs & E). injection E as <-. destruct (IH _ _ Exs) as (cells & L & -> & C).
    exists ([x] :: cells). cbn [length]. split; [lia|]. split; [reflexivity|]. intros [|j] Hj; cbn [nth]; [exists x; rewrite Nat.add_0_r; auto|].
    specialize (C j ltac:(lia)). replace (k + S j) with (S k + j) by lia. exact C.
  - intro E. destruct (IH _ _ E) as (cells & L & -> & C). exists ([] :: cells). cbn [length]. split; [lia|]. split; [reflexivity|]. intros [|j] Hj; cbn [nth]; [reflexivity|].
    specialize (C j ltac:(lia)). replace (k + S j) with (S k + j) by lia. exact C.
Qed.

Theorem rows_laid r mk (cont : nat -> text -> Prop) ws : length (r_snip r) = c_line_count (r_ctx r) -> proper (r_snip r) -> marks_are (r_snip r) mk ->
  (forall j t, content_at r j = Ok t -> cont j t) -> rows_of r = Ok ws -> laid_out (c_line_count (r_ctx r)) (or_all mk) cont ws.
Proof.
  intros HL HP HM HC H. unfold rows_of in H. rewrite <- HL in *. apply bind_ok in H as (s' & Hs & H). apply (complete_spec _ HP) in Hs as [L' Hs]. rewrite <- L'.
  destruct (draw_cells _ _ _ _ H) as (cells & Lc & -> & C). exists cells. split; [assumption|]. split; [reflexivity|]. intros j Hj. specialize (C j Hj). rewrite L' in Hj.
  set (s := r_snip r) in *. cbn [plus] in C.
  assert (forall k, markb s k = true <-> exists m, mk k m) as Hmb.
  { intro k. specialize (HM k). unfold markb. fold s in HM. destruct (nth_error s k) as [[t|]|]; split; try discriminate; eauto; intros [m Hm]; destruct (HM m Hm). }
  assert (forall t, t <> OMISSION -> forall w, row_at r j t = Ok w -> exists y, cont j y /\ w = Line (j + 1) (mark_of t) y) as Hrow.
  { intros t Ht w Hw. assert ((do x <- content_at r j; Ok (Line (j + 1) (mark_of t) x)) = Ok w) as Hw' by (destruct t; auto; congruence).
    apply bind_ok in Hw' as (y & Hy & E). exists y. split; [auto|congruence]. }
  destruct Hs as [[Hno Hq]|[[j0 Hsome] Hp]].
  - assert (nth j s' None = Some QUESTION) as E by (apply nth_error_nth; rewrite Hq by assumption; reflexivity). rewrite E in C. destruct C as (w & Hw & ->).
    apply Hrow in Hw as (y & Hy & ->); [|discriminate]. apply cell_marked; [|assumption]. right. split; [|reflexivity]. intros k m Hk.
    assert (markb s k = true) by (apply Hmb; eauto). rewrite Hno in *. discriminate.
  - assert (forall k, marked (or_all mk) k <-> markb s k = true) as Hma.
    { intro k. rewrite Hmb. split; [|intros [m Hm]; exists m; now left]. intros [m [Hm|[Hn _]]]; [eauto|]. apply Hmb in Hsome as [m0 Hm0]. destruct (Hn _ _ Hm0). }
    assert (near (or_all mk) j <-> nearb s j = true) as Hne.
    { unfold near, nearb. rewrite !orb_true_iff, !andb_true_iff, !Nat.ltb_lt. setoid_rewrite Hma. split.
      - intros (k & Hk & [Hk1|[Hk1 Hk2]]).
        + assert (k = j + 1 \/ k = j + 2) as [->| ->] by lia; auto.
        + assert (k = j - 1 \/ k = j - 2) as [->| ->] by lia; [right|left; left; right]; (split; [lia|assumption]).
      - intros [[[Hk|[Hk1 Hk]]|Hk]|[Hk1 Hk]]; eexists; (split; [exact Hk|lia]). }
    assert (nth j s' None = match pass s j with Some t => Some t | None => if Nat.eqb (j + 1) (length s) then Some OMISSION else None end) as E by (apply nth_error_nth; rewrite Hp by assumption; reflexivity).
    rewrite E in C. clear E. unfold pass in C. assert (nth_error s j = Some (nth j s None)) as En by now apply nth_error_get.
    assert (markb s j = match nth j s None with Some _ => true | None => false end) as Ej by (unfold markb; rewrite En; destruct (nth j s None); reflexivity).
    destruct (nth j s None) as [t|] eqn:Et.
    + destruct C as (w & Hw & ->). destruct (HP j t En) as [_ Ho]. apply (Hrow t Ho) in Hw as (y & Hy & ->). apply cell_marked; [|assumption]. left. specialize (HM j). rewrite En in HM. exact HM.
    + assert (~ marked (or_all mk) j) as Nj by (rewrite Hma, Ej; discriminate). destruct (nearb s j) eqn:Enear.
      * destruct C as (w & Hw & ->). apply (Hrow DISPLAY) in Hw as (y & Hy & ->); [|discriminate]. apply cell_near; auto. now apply Hne.
      * assert (~ near (or_all mk) j) as Nn by (rewrite Hne; discriminate). destruct (markb s (j + 3)) eqn:E3.
        -- destruct C as (w & Hw & ->). cbn in Hw. injection Hw as <-. apply cell_dots; auto. left. now apply Hma.
        -- destruct (Nat.eqb_spec (j + 1) (length s)) as [El|El].
           ++ destruct C as (w & Hw & ->). cbn in Hw. injection Hw as <-. apply cell_dots; auto. right. lia.
           ++ rewrite C. apply cell_hidden; auto; [rewrite Hma; congruence|lia].
Qed.
