(** AppendScan: the instructions of a text are read the same when further lines follow it. *)
From Verif Require Import Base Regex Grammar Scan ScanProofs Types ScanFacts.

Section Append.
  Context (s : text).
  Local Notation more r := (r ++ nl :: s).

  Lemma takewhile_more p r : p nl = false -> takewhile p (more r) = takewhile p r.
  Proof. intro H. induction r as [|c r IH]; cbn [app takewhile]; [now rewrite H|]. now rewrite IH. Qed.
  Lemma dropwhile_more p r : p nl = false -> dropwhile p (more r) = more (dropwhile p r).
  Proof. intro H. induction r as [|c r IH]; cbn [app dropwhile]; [now rewrite H|]. destruct (p c); [assumption|reflexivity]. Qed.

  Lemma line_more r : line_of (more r) = line_of r.
  Proof. now apply takewhile_more. Qed.
  Lemma eol_more i r : eol i (more r) = eol i r.
  Proof. unfold eol. now rewrite line_more. Qed.
  Lemma spaces_more r : spaces (more r) = spaces r.
  Proof. unfold spaces. now rewrite takewhile_more. Qed.
  Lemma after_spaces_more r : after_spaces (more r) = more (after_spaces r).
  Proof. now apply dropwhile_more. Qed.
  Lemma opt_value_more i r : opt_value i (more r) = opt_value i r.
  Proof. unfold opt_value. now rewrite after_spaces_more, line_more, spaces_more. Qed.

  Lemma blanks_more r : after_blanks r <> [] -> blanks (more r) = blanks r /\ after_blanks (more r) = more (after_blanks r).
  Proof.
    unfold blanks, after_blanks. induction r as [|c r IH]; cbn [app takewhile dropwhile]; [congruence|].
    destruct (is_space c); [|auto]. intro H. destruct (IH H) as [H1 H2]. cbn [length]. rewrite H1. auto.
  Qed.

  Lemma section_tail_more i r : section_tail i (more r) = section_tail i r.
  Proof.
    unfold section_tail. rewrite after_spaces_more, spaces_more. destruct (after_spaces r) as [|c r1]; [reflexivity|]. cbn [app].
    destruct (N.eqb c nl); [reflexivity|]. destruct (N.eqb c c_lt); [|reflexivity].
    destruct r1 as [|d r2]; cbn [app].
    - change (N.eqb nl c_lt) with false. cbn iota. change (nl :: s) with (more []). now rewrite opt_value_more, eol_more.
    - destruct (N.eqb d c_lt); [now rewrite opt_value_more, eol_more|].
      change (d :: more r2) with (more (d :: r2)). now rewrite opt_value_more, eol_more.
  Qed.

  Lemma after_blanks_value q r : after_blanks r = [] -> opt_value q r = None.
  Proof.
    intro H. assert (forall l, after_blanks l = [] -> forallb is_space l = true) as Hs.
    { clear. induction l as [|c l IH]; [reflexivity|]. unfold after_blanks. cbn [dropwhile forallb]. destruct (is_space c); [exact IH|discriminate]. }
    apply Hs in H. clear Hs. unfold opt_value. rewrite rtrim_spaces; [reflexivity|].
    assert (forallb is_space (after_spaces r) = true) as H1.
    { clear -H. induction r as [|c r IH]; [reflexivity|]. unfold after_spaces. cbn [dropwhile forallb] in *. apply andb_true_iff in H as [H0 H].
      destruct (hspace c); [now apply IH|]. cbn [forallb]. now rewrite H0, H. }
    revert H1. generalize (after_spaces r). clear. induction l as [|c l IH]; [reflexivity|]. unfold line_of. cbn [takewhile forallb]. intro H.
    apply andb_true_iff in H as [H0 H]. unfold not_nl, hspace in *. destruct (N.eqb c nl) eqn:E; cbn [negb]; [reflexivity|].
    cbn [forallb]. rewrite E, H0. cbn. now apply IH.
  Qed.

  Lemma late_tail_more i r x : late_tail i r = Some x -> late_tail i (more r) = Some x.
  Proof.
    unfold late_tail. destruct (after_blanks r) as [|c r1] eqn:E; [discriminate|].
    destruct (blanks_more r) as [E1 E2]; [congruence|]. rewrite E2, E1, E. cbn [app].
    destruct (N.eqb c c_colon); [now rewrite opt_value_more, eol_more|].
    destruct (N.eqb c c_eq); [now rewrite opt_value_more, eol_more|].
    destruct (N.eqb c c_lt); [|discriminate].
    destruct (after_blanks r1) as [|d r2] eqn:E3; [rewrite (after_blanks_value _ [] eq_refl); discriminate|].
    destruct (blanks_more r1) as [E4 E5]; [congruence|]. rewrite E4, E5, E3, opt_value_more, eol_more. auto.
  Qed.
  Lemma after_blanks_in r t : In t r -> is_space t = false -> exists c r1, after_blanks r = c :: r1 /\ (c = t \/ In t r1).
  Proof.
    intros H Ht. induction r as [|c r IH]; [destruct H|]. unfold after_blanks. cbn [dropwhile]. destruct (is_space c) eqn:E.
    - destruct H as [->|H]; [congruence|]. now apply IH.
    - exists c, r. split; [reflexivity|]. destruct H; auto.
  Qed.
  Lemma late_tail_none i r : In c_tick r -> late_tail i r = None -> late_tail i (more r) = None.
  Proof.
    intro H. destruct (after_blanks_in r c_tick H eq_refl) as (c & r1 & E & Hc). unfold late_tail.
    destruct (blanks_more r) as [E1 E2]; [congruence|]. rewrite E2, E1, E. cbn [app].
    destruct (N.eqb c c_colon); [discriminate|]. destruct (N.eqb c c_eq); [discriminate|].
    destruct (N.eqb_spec c c_lt) as [->|]; [|reflexivity].
    destruct Hc as [Hc|Hc]; [discriminate|]. destruct (after_blanks_in r1 c_tick Hc eq_refl) as (d & r2 & E3 & _).
    destruct (blanks_more r1) as [E4 E5]; [congruence|]. rewrite E4, E5, E3, opt_value_more, eol_more. auto.
  Qed.

  Lemma strip_more p r r2 : strip_prefix p r = Some r2 -> strip_prefix p (more r) = Some (more r2).
  Proof. intro H. apply strip_prefix_app in H as ->. apply strip_prefix_app. apply app_assoc_reverse. Qed.
  Lemma strip_more_none p r : ~ In nl p -> strip_prefix p r = None -> strip_prefix p (more r) = None.
  Proof.
    intros H E. destruct (strip_prefix p (more r)) as [r2|] eqn:E2; [|reflexivity]. exfalso. apply strip_prefix_app in E2.
    revert p H E E2. induction r as [|c r IH]; intros p H E E2; destruct p as [|d p]; cbn in E; try discriminate.
    - cbn in E2. injection E2 as <- _. apply H. now left.
    - cbn in E2. injection E2 as <- E2. rewrite N.eqb_refl in E. apply (IH p); auto. intro. apply H. now right.
  Qed.

  Lemma close_key_in {A} (tail : nat -> text -> option A) ticks i r x : close_key tail ticks i r = Some x -> exists w rest, r = w ++ ticks ++ rest.
  Proof.
    revert i. induction r as [|c r IH]; intros i; cbn [close_key].
    - destruct (strip_prefix ticks (after_spaces [])) as [r2|] eqn:E; [|discriminate]. apply strip_prefix_app in E. intros _. exists [], r2. exact E.
    - destruct (strip_prefix ticks (after_spaces (c :: r))) as [r2|] eqn:E.
      + destruct (tail _ r2).
        * intros _. apply strip_prefix_app in E. exists (takewhile hspace (c :: r)), r2. rewrite <- E. apply split_spaces.
        * destruct (not_nl c); [|discriminate]. intro H. destruct (IH _ H) as (w & rest & ->). now exists (c :: w), rest.
      + destruct (not_nl c); [|discriminate]. intro H. destruct (IH _ H) as (w & rest & ->). now exists (c :: w), rest.
  Qed.
  (** a closing that comes later is behind *)
  Lemma close_key_later {A} (tail : nat -> text -> option A) n i r x r2 :
    close_key tail (repeat c_tick (S n)) i r = Some x -> strip_prefix (repeat c_tick (S n)) (after_spaces r) = Some r2 ->
    tail (i + spaces r + S n) r2 = None -> In c_tick r2.
  Proof.
    revert i. induction r as [|c r IH]; intros i H E Ht; [discriminate|].
    cbn [close_key] in H. rewrite E in H. rewrite repeat_length in H. rewrite Ht in H. destruct (not_nl c); [|discriminate].
    destruct (hspace c) eqn:Ec.
    - assert (after_spaces (c :: r) = after_spaces r) as Ea by (unfold after_spaces; cbn [dropwhile]; now rewrite Ec).
      assert (spaces (c :: r) = S (spaces r)) as Es by (unfold spaces; cbn [takewhile]; now rewrite Ec).
      rewrite Ea in E. rewrite Es in Ht. apply (IH (S i)); auto. now replace (S i + spaces r + S n) with (i + S (spaces r) + S n) by lia.
    - assert (after_spaces (c :: r) = c :: r) as Ea by (unfold after_spaces; cbn [dropwhile]; now rewrite Ec).
      rewrite Ea in E. apply strip_prefix_app in E. cbn [repeat app] in E. injection E as _ ->.
      apply close_key_in in H as (w & rest & H). clear -H. revert w H. induction n as [|n IH]; intros w H.
      + cbn [repeat app] in H. rewrite H. apply in_or_app. right. now left.
      + destruct w as [|y w]; cbn [repeat app] in H.
        * injection H as H. rewrite app_comm_cons, repeat_cons, <- app_assoc in H.
          apply app_inv_head in H. subst r2. now left.
        * injection H as _ H. apply (IH (w ++ [c_tick])). rewrite H. cbn [repeat app]. now rewrite <- app_assoc.
  Qed.

  Definition keeps_tail {A} (tail : nat -> text -> option A) : Prop :=
    (forall i r x, tail i r = Some x -> tail i (more r) = Some x) /\ (forall i r, In c_tick r -> tail i r = None -> tail i (more r) = None).
  Lemma tick_no_nl n : ~ In nl (repeat c_tick n).
  Proof. intro H. apply repeat_spec in H. discriminate. Qed.
  Lemma close_key_more {A} (tail : nat -> text -> option A) n i r x : keeps_tail tail ->
    close_key tail (repeat c_tick (S n)) i r = Some x -> close_key tail (repeat c_tick (S n)) i (more r) = Some x.
  Proof.
    intros [K1 K2]. revert i. induction r as [|c r IH]; intros i H; [discriminate|].
    change (more (c :: r)) with (c :: more r). pose proof (after_spaces_more (c :: r)) as Ea. pose proof (spaces_more (c :: r)) as Es. change (more (c :: r)) with (c :: more r) in Ea, Es.
    assert (exists v, v = close_key tail (repeat c_tick (S n)) (S i) r) as [v Ev] by eauto.
    pose proof H as H0. cbn [close_key] in H |- *. rewrite Ea, Es.
    destruct (strip_prefix (repeat c_tick (S n)) (after_spaces (c :: r))) as [r2|] eqn:E.
    - rewrite (strip_more _ _ _ E). rewrite repeat_length in *. destruct (tail _ r2) as [y|] eqn:Et.
      + rewrite (K1 _ _ _ Et). exact H.
      + rewrite (K2 _ _ (close_key_later tail n i (c :: r) x r2 H0 E Et) Et). destruct (not_nl c); [|discriminate]. now apply IH.
    - rewrite (strip_more_none _ _ (tick_no_nl _) E). destruct (not_nl c); [|discriminate]. now apply IH.
  Qed.

  Lemma skipn_more n r : n <= length r -> skipn n (more r) = more (skipn n r).
  Proof. intro H. rewrite skipn_app. replace (n - length r) with 0 by lia. reflexivity. Qed.

  Lemma scan_key_more {A} first ok (tail : nat -> text -> option A) i r k x : keeps_tail tail -> ok nl = false ->
    scan_key first ok tail i r = Some (k, x) -> scan_key first ok tail i (more r) = Some (k, x).
  Proof.
    intros K Hok. unfold scan_key. destruct r as [|c r]; [discriminate|]. change (more (c :: r)) with (c :: more r). cbn [app].
    destruct (first c).
    - rewrite takewhile_more by assumption. set (kk := rtrim (c :: takewhile ok r)).
      assert (length kk <= length (c :: r)) as Hl.
      { unfold kk. pose proof (rtrim_len (c :: takewhile ok r)) as H. cbn [length] in *. assert (length (takewhile ok r) <= length r); [|lia].
        clear. induction r as [|y r IH]; cbn; [lia|]. destruct (ok y); cbn; lia. }
      destruct (tail (i + length kk) (skipn (length kk) (c :: r))) as [y|] eqn:E; [|discriminate]. intros [= <- <-].
      change (c :: more r) with (more (c :: r)). rewrite skipn_more by assumption. apply K in E. rewrite E. reflexivity.
    - destruct (N.eqb_spec c c_tick) as [->|]; [|discriminate]. cbn zeta.
      change (c_tick :: more r) with (more (c_tick :: r)). rewrite takewhile_more, dropwhile_more by reflexivity.
      rewrite spaces_more, after_spaces_more. rewrite (repeat_takewhile c_tick (c_tick :: r)).
      assert (exists n, length (takewhile (fun x => N.eqb x c_tick) (c_tick :: r)) = S n) as [n En] by (cbn [takewhile]; rewrite N.eqb_refl; cbn; eauto).
      rewrite En, repeat_length. destruct (after_spaces _) as [|d r2]; [discriminate|]. cbn [app]. destruct (N.eqb d nl); [discriminate|].
      destruct (close_key tail (repeat c_tick (S n)) _ r2) as [[[ke tb] y]|] eqn:E; [|discriminate].
      rewrite (close_key_more tail n _ _ _ K E). auto.
  Qed.
  Lemma section_keeps : keeps_tail section_tail.
  Proof. split; intros; now rewrite section_tail_more. Qed.
  Lemma late_keeps : keeps_tail late_tail.
  Proof. split; intros; [now apply late_tail_more|now apply late_tail_none]. Qed.

  Theorem scan_more i r t e : scan i r = Some (t, e) -> scan i (more r) = Some (t, e).
  Proof.
    unfold scan. rewrite after_spaces_more, spaces_more. cbn zeta. destruct (after_spaces r) as [|c r1]; [auto|]. cbn [app].
    destruct (N.eqb c nl); [auto|]. change (c :: more r1) with (more (c :: r1)).
    destruct (N.eqb c c_pipe); [now rewrite opt_value_more, eol_more|].
    destruct (N.eqb c c_bslash); [now rewrite opt_value_more, eol_more|].
    destruct (N.eqb c c_gt); [now rewrite opt_value_more, eol_more|].
    destruct (N.eqb c c_dash).
    { rewrite takewhile_more, dropwhile_more by reflexivity. rewrite !opt_value_more, !eol_more. auto. }
    destruct (N.eqb c c_hash).
    { rewrite takewhile_more, dropwhile_more by reflexivity. generalize (dropwhile (fun x => N.eqb x c_hash) (c :: r1)) as r2. intro r2.
      destruct (after_blanks r2) as [|d r3] eqn:E; [discriminate|]. destruct (blanks_more r2) as [E1 E2]; [congruence|]. rewrite E1, E2, E.
      destruct (scan_key _ _ section_tail _ (d :: r3)) as [[k [tp e']]|] eqn:Ek; [|discriminate].
      rewrite (scan_key_more _ _ _ _ _ _ _ section_keeps eq_refl Ek). auto. }
    destruct (scan_key key_first key_char late_tail _ (c :: r1)) as [[k [lt e']]|] eqn:Ek; [|discriminate].
    rewrite (scan_key_more _ _ _ _ _ _ _ late_keeps eq_refl Ek). auto.
  Qed.

  Lemma no_dash_more r : match more r with c :: _ => N.eqb c c_dash | [] => false end = match r with c :: _ => N.eqb c c_dash | [] => false end.
  Proof. destruct r; reflexivity. Qed.
  Lemma closing_line_more op key i r x : closing_line op key i r = Some x -> closing_line op key i (more r) = Some x.
  Proof.
    unfold closing_line. rewrite after_spaces_more, spaces_more. destruct (strip_prefix op (after_spaces r)) as [r1|] eqn:E1; [|discriminate].
    rewrite (strip_more _ _ _ E1), no_dash_more. destruct (match r1 with c :: _ => _ | [] => _ end); [discriminate|].
    rewrite after_spaces_more, spaces_more. destruct (strip_prefix key _) as [r2|] eqn:E2; [|discriminate].
    rewrite (strip_more _ _ _ E2), line_more, eol_more. auto.
  Qed.
  Lemma closing_line_none op key i r : ~ In nl op -> ~ In nl key -> closing_line op key i r = None -> closing_line op key i (more r) = None.
  Proof.
    intros Ho Hk. unfold closing_line. rewrite after_spaces_more, spaces_more. destruct (strip_prefix op (after_spaces r)) as [r1|] eqn:E1.
    2:{ intros _. now rewrite (strip_more_none _ _ Ho E1). }
    rewrite (strip_more _ _ _ E1), no_dash_more. destruct (match r1 with c :: _ => _ | [] => _ end); [auto|].
    rewrite after_spaces_more, spaces_more. destruct (strip_prefix key _) as [r2|] eqn:E2; [|intros _; now rewrite (strip_more_none _ _ Hk E2)].
    rewrite (strip_more _ _ _ E2), line_more, eol_more. auto.
  Qed.
  Theorem find_closing_more op key i r x : ~ In nl op -> ~ In nl key -> find_closing op key i r = Some x -> find_closing op key i (more r) = Some x.
  Proof.
    intros Ho Hk. revert i. induction r as [|c r IH]; intros i; cbn [find_closing app]; [discriminate|].
    destruct (N.eqb c nl).
    - destruct (closing_line op key (S i) r) as [y|] eqn:E; [now rewrite (closing_line_more _ _ _ _ _ E)|].
      rewrite (closing_line_none _ _ _ _ Ho Hk E). apply IH.
    - apply IH.
  Qed.
End Append.

(** * Lines that cannot be read *)
Section Invalid.
  Context (s : text).
  Local Notation more r := (r ++ nl :: s).

  (** [r] has a visible character other than [<] in a later line *)
  Definition goes_on (r : text) : Prop := exists c, In c (skipn (length (line_of r)) r) /\ is_space c = false /\ c <> c_lt.

  Lemma late_tail_stays i r c : In c r -> is_space c = false -> c <> c_lt -> late_tail i r = None -> late_tail i (more r) = None.
  Proof.
    intros H Hc Hl. destruct (after_blanks_in r c H Hc) as (x & r1 & E & Hx). unfold late_tail.
    destruct (blanks_more s r) as [E1 E2]; [congruence|]. rewrite E2, E1, E. cbn [app].
    destruct (N.eqb x c_colon); [discriminate|]. destruct (N.eqb x c_eq); [discriminate|].
    destruct (N.eqb_spec x c_lt) as [->|]; [|reflexivity].
    destruct Hx as [Hx|Hx]; [congruence|]. destruct (after_blanks_in r1 c Hx Hc) as (d & r2 & E3 & _).
    destruct (blanks_more s r1) as [E4 E5]; [congruence|]. rewrite E4, E5, E3, opt_value_more, eol_more. auto.
  Qed.

  Lemma goes_on_app a r : forallb not_nl a = true -> goes_on (a ++ r) -> goes_on r.
  Proof.
    intros Ha (c & Hc & H). exists c. split; [|assumption]. rewrite line_of_app in Hc by assumption.
    rewrite app_length, skipn_app in Hc. rewrite skipn_all2 in Hc by lia. cbn [app] in Hc. now replace (length a + length (line_of r) - length a) with (length (line_of r)) in Hc by lia.
  Qed.
  Lemma goes_on_in r : goes_on r -> exists c, In c r /\ is_space c = false /\ c <> c_lt.
  Proof. intros (c & Hc & H). exists c. split; [|assumption]. rewrite <- (firstn_skipn (length (line_of r)) r). apply in_or_app. now right. Qed.
  Lemma hspaces_no_nl l : forallb hspace l = true -> forallb not_nl l = true.
  Proof. apply forallb_impl. intros c. apply hspace_not_nl. Qed.
  Lemma goes_on_spaces r : goes_on r -> goes_on (after_spaces r).
  Proof. intro H. rewrite (split_spaces r) in H. apply goes_on_app in H; [assumption|]. apply hspaces_no_nl, takewhile_forallb. Qed.

  Definition stays {A} (ok : text -> Prop) (tail : nat -> text -> option A) : Prop := forall i r, ok r -> tail i r = None -> tail i (more r) = None.
  Lemma close_key_stays {A} (ok : text -> Prop) (tail : nat -> text -> option A) n i r : stays ok tail ->
    (forall a r', forallb not_nl a = true -> ok (a ++ r') -> ok r') -> ok r ->
    close_key tail (repeat c_tick (S n)) i r = None -> close_key tail (repeat c_tick (S n)) i (more r) = None.
  Proof.
    intros K Hok. revert i. induction r as [|c r IH]; intros i Hr H.
    - cbn [app close_key]. change (after_spaces (nl :: s)) with (nl :: s). cbn [repeat strip_prefix]. reflexivity.
    - change (more (c :: r)) with (c :: more r). pose proof (after_spaces_more s (c :: r)) as Ea. pose proof (spaces_more s (c :: r)) as Es. change (more (c :: r)) with (c :: more r) in Ea, Es.
      assert (not_nl c = true -> ok r) as Hr' by (intro Hc; apply (Hok [c] r); [cbn [forallb]; now rewrite Hc|exact Hr]).
      cbn [close_key] in H |- *. rewrite Ea, Es.
      destruct (strip_prefix (repeat c_tick (S n)) (after_spaces (c :: r))) as [r2|] eqn:E.
      + rewrite (strip_more s _ _ _ E). destruct (tail _ r2) as [y|] eqn:Et; [discriminate|].
        rewrite (K _ r2); [|apply (Hok (takewhile hspace (c :: r) ++ repeat c_tick (S n))) |exact Et].
        * destruct (not_nl c); [|reflexivity]. apply IH; auto.
        * rewrite forallb_app, (hspaces_no_nl _ (takewhile_forallb _ _)). cbn [andb]. apply not_nl_in, tick_no_nl.
        * apply strip_prefix_app in E. rewrite <- app_assoc, <- E, <- split_spaces. exact Hr.
      + rewrite (strip_more_none s _ _ (tick_no_nl _) E). destruct (not_nl c); [|reflexivity]. apply IH; auto.
  Qed.

  Lemma firstn_forallb {A} (p : A -> bool) n l : forallb p l = true -> forallb p (firstn n l) = true.
  Proof. revert n. induction l as [|x l IH]; intros [|n] H; cbn in *; try reflexivity. apply andb_true_iff in H as [-> H]. now apply IH. Qed.

  Lemma scan_key_stays {A} (ok : text -> Prop) first cok (tail : nat -> text -> option A) i r : stays ok tail ->
    (forall a r', forallb not_nl a = true -> ok (a ++ r') -> ok r') -> (forall c, cok c = true -> not_nl c = true) -> (forall c, first c = true -> not_nl c = true) ->
    r <> [] -> ok r -> scan_key first cok tail i r = None -> scan_key first cok tail i (more r) = None.
  Proof.
    intros K Hok Hc Hf Hne Hr. assert (cok nl = false) as Hcn by (destruct (cok nl) eqn:E; [now apply Hc in E|reflexivity]).
    unfold scan_key. destruct r as [|c r]; [congruence|]. change (more (c :: r)) with (c :: more r). cbn [app].
    destruct (first c) eqn:Efc.
    - rewrite takewhile_more by assumption. set (kk := rtrim (c :: takewhile cok r)).
      assert (exists t, c :: takewhile cok r = kk ++ t) as [t Et] by (destruct (rtrim_decomp (c :: takewhile cok r)) as (t & E & _); now exists t).
      assert (c :: r = kk ++ t ++ dropwhile cok r) as Er.
      { rewrite app_assoc, <- Et. cbn [app]. f_equal. clear. induction r as [|x r IH]; cbn; [reflexivity|]. destruct (cok x); cbn; [now rewrite <- IH|reflexivity]. }
      assert (forallb not_nl kk = true) as Hk.
      { assert (forallb not_nl (c :: takewhile cok r) = true) as H.
        { cbn [forallb]. rewrite (Hf _ Efc). cbn [andb]. eapply forallb_impl; [|apply takewhile_forallb]. exact Hc. }
        rewrite Et, forallb_app in H. now apply andb_true_iff in H as [H _]. }
      assert (length kk <= length (c :: r)) as Hl by (rewrite Er, app_length; lia).
      change (c :: more r) with (more (c :: r)). rewrite skipn_more by assumption.
      destruct (tail (i + length kk) (skipn (length kk) (c :: r))) as [y|] eqn:E; [discriminate|]. intros _.
      apply K in E; [now rewrite E|]. apply (Hok kk); [assumption|]. assert (skipn (length kk) (c :: r) = t ++ dropwhile cok r) as -> by (rewrite Er, skipn_app, skipn_all, Nat.sub_diag; reflexivity).
      rewrite <- Er. exact Hr.
    - destruct (N.eqb_spec c c_tick) as [->|]; [|reflexivity]. cbn zeta.
      change (c_tick :: more r) with (more (c_tick :: r)). rewrite takewhile_more, dropwhile_more by reflexivity.
      rewrite spaces_more, after_spaces_more.
      set (r1 := dropwhile (fun x => N.eqb x c_tick) (c_tick :: r)).
      assert (c_tick :: r = takewhile (fun x => N.eqb x c_tick) (c_tick :: r) ++ takewhile hspace r1 ++ after_spaces r1) as Er.
      { rewrite <- split_spaces. symmetry. apply take_drop_while. }
      rewrite (repeat_takewhile c_tick (c_tick :: r)) in *.
      assert (exists n, length (takewhile (fun x => N.eqb x c_tick) (c_tick :: r)) = S n) as [n En] by (cbn [takewhile]; rewrite N.eqb_refl; cbn; eauto).
      rewrite En in *. rewrite repeat_length. destruct (after_spaces r1) as [|d r2]; [reflexivity|]. cbn [app].
      destruct (N.eqb d nl) eqn:Ed; [reflexivity|].
      destruct (close_key tail (repeat c_tick (S n)) _ r2) as [[[ke tb] y]|] eqn:E; [discriminate|]. intros _.
      rewrite (close_key_stays ok tail n _ r2 K Hok); [reflexivity| |exact E].
      apply (Hok (repeat c_tick (S n) ++ takewhile hspace r1 ++ [d])).
      + rewrite !forallb_app, (hspaces_no_nl _ (takewhile_forallb _ _)). cbn [forallb]. unfold not_nl at 2. rewrite Ed, andb_true_r. apply not_nl_in, tick_no_nl.
      + rewrite <- !app_assoc. cbn [app]. rewrite <- Er. exact Hr.
  Qed.

  Theorem scan_stays i r : goes_on r -> scan i r = None -> scan i (more r) = None.
  Proof.
    intros Hg. unfold scan. rewrite after_spaces_more, spaces_more. cbn zeta. apply goes_on_spaces in Hg.
    destruct (after_spaces r) as [|c r1] eqn:Er; [discriminate|]. cbn [app].
    destruct (N.eqb c nl) eqn:En; [discriminate|]. change (c :: more r1) with (more (c :: r1)).
    destruct (N.eqb c c_pipe); [discriminate|]. destruct (N.eqb c c_bslash); [discriminate|]. destruct (N.eqb c c_gt); [discriminate|].
    destruct (N.eqb c c_dash).
    { rewrite takewhile_more, dropwhile_more by reflexivity. rewrite !opt_value_more, !eol_more. auto. }
    destruct (N.eqb c c_hash).
    { rewrite takewhile_more, dropwhile_more by reflexivity.
      assert (goes_on (dropwhile (fun x => N.eqb x c_hash) (c :: r1))) as Hg2.
      { rewrite <- (take_drop_while (fun x => N.eqb x c_hash) (c :: r1)) in Hg. apply goes_on_app in Hg; [assumption|].
        eapply forallb_impl; [|apply takewhile_forallb]. cbn. intros x Hx. apply N.eqb_eq in Hx as ->. reflexivity. }
      revert Hg2. generalize (dropwhile (fun x => N.eqb x c_hash) (c :: r1)) as r2. intros r2 Hg2.
      apply goes_on_in in Hg2 as (v & Hv & Hv' & _). destruct (after_blanks_in r2 v Hv Hv') as (d & r3 & E & _).
      destruct (blanks_more s r2) as [E1 E2]; [congruence|]. rewrite E1, E2, E.
      destruct (scan_key _ _ section_tail _ (d :: r3)) as [[k [tp e']]|] eqn:Ek; [discriminate|]. intros _.
      rewrite (scan_key_stays (fun _ => True)); auto.
      - intros j q _ H. now rewrite section_tail_more.
      - exact skey_char_nl.
      - intros x Hx. apply skey_first_space in Hx. unfold not_nl. destruct (N.eqb_spec x nl) as [->|]; [discriminate|reflexivity].
      - discriminate. }
    destruct (scan_key key_first key_char late_tail _ (c :: r1)) as [[k [lt e']]|] eqn:Ek; [destruct lt; discriminate|]. intros _.
    rewrite (scan_key_stays goes_on); auto.
    - intros j q Hq H. apply goes_on_in in Hq as (v & Hv & Hv' & Hv''). now apply (late_tail_stays j q v).
    - exact goes_on_app.
    - exact key_char_nl.
    - intros x Hx. apply key_first_space in Hx. unfold not_nl. destruct (N.eqb_spec x nl) as [->|]; [discriminate|reflexivity].
    - discriminate.
  Qed.
End Invalid.
