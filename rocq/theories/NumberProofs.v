(** NumberProofs: [dec] writes decimal numbers. *)
From Verif Require Import Base SpecNumber.

Lemma dec_from f : forall n acc, n < f -> exists p, dec_fuel f n acc = p ++ acc /\ decimal n p.
Proof.
  induction f as [|f IH]; intros n acc Hf; [lia|]. cbn [dec_fuel]. set (d := N.add 48 (N.of_nat (n mod 10))).
  assert (M : n mod 10 < 10) by (apply Nat.mod_upper_bound; lia).
  assert (Hd : digit d) by (unfold digit, d; lia).
  assert (Ed : N.to_nat (d - 48) = n mod 10) by (unfold d; lia).
  destruct (Nat.ltb_spec n 10) as [H|H].
  - exists [d]. split; [reflexivity|]. split; [constructor; [exact Hd|constructor]|]. split; [cbn [digits_value]; rewrite Ed, Nat.mod_small; lia|exists d, []; auto].
  - pose proof (Nat.div_mod n 10 ltac:(lia)) as DM. destruct (IH (n / 10) (d :: acc)) as (p & E & F & V & c & t & -> & HZ); [lia|].
    exists ((c :: t) ++ [d]). split; [rewrite E, <- app_assoc; reflexivity|]. split; [apply Forall_app; split; [exact F|constructor; [exact Hd|constructor]]|]. split.
    + assert (A : forall t a, digits_value (t ++ [d]) a = 10 * digits_value t a + N.to_nat (d - 48)).
      { clear. induction t as [|x t IH]; intro a; cbn [app digits_value]; [reflexivity|apply IH]. }
      rewrite A, V, Ed. lia.
    + exists c, (t ++ [d]). split; [reflexivity|]. intro Hc. exfalso. rewrite (HZ Hc) in V. cbn [digits_value] in V. rewrite Hc in V. replace (10 * 0 + N.to_nat (48 - 48)) with 0 in V by reflexivity. lia.
Qed.
Lemma dec_is n : decimal n (dec n).
Proof. destruct (dec_from (S n) n [] ltac:(lia)) as (p & E & D). unfold dec. rewrite E, app_nil_r. exact D. Qed.
Lemma digits_app t u a : digits_value (t ++ u) a = digits_value u (digits_value t a).
Proof. revert a. induction t as [|x t IH]; intro a; cbn [app digits_value]; [reflexivity|apply IH]. Qed.
Lemma decimal_one n t u : decimal n t -> decimal n u -> t = u.
Proof.
  revert n u. induction t as [|d t IH] using rev_ind; intros n u (F & V & c & t' & E & Z); [discriminate|].
  intros (F' & V' & c' & u' & E' & Z'). destruct u as [|d' u _] using rev_ind; [discriminate|].
  rewrite digits_app in V, V'. cbn [digits_value] in V, V'. apply Forall_app in F as [F1 F2], F' as [F1' F2'].
  apply Forall_inv in F2, F2'. unfold digit in F2, F2'.
  assert (N.to_nat (d - 48) < 10 /\ N.to_nat (d' - 48) < 10) as [B1 B2] by lia.
  assert (digits_value t 0 = digits_value u 0) as EV by lia. assert (d = d') as -> by lia. f_equal.
  assert (POS : forall t, (exists c t', t = c :: t' /\ c <> 48%N) -> Forall digit t -> 0 < digits_value t 0).
  { clear. intros t (c & t' & -> & Hc) F. pose proof (Forall_inv F) as D. unfold digit in D. cbn [digits_value]. assert (forall t a, 0 < a -> 0 < digits_value t a) as G.
    { clear. induction t as [|x t IH]; intros a Ha; cbn [digits_value]; [assumption|apply IH; lia]. } apply G. lia. }
  assert (HEAD : forall t c t', t ++ [d'] = c :: t' -> (c = 48%N -> t' = []) -> t = [] \/ exists c t', t = c :: t' /\ c <> 48%N).
  { clear. intros [|x t] c t' E Z; [now left|right]. injection E as -> E. exists c, t. split; [reflexivity|]. intro Hc. specialize (Z Hc). subst t'. now destruct t. }
  destruct (HEAD t c t' E Z) as [->|H1], (HEAD u c' u' E' Z') as [->|H2].
  - reflexivity.
  - pose proof (POS u H2 F1'). cbn in EV. lia.
  - pose proof (POS t H1 F1). cbn in EV. lia.
  - apply (IH (digits_value u 0)); [split; [exact F1|split; [exact EV|]]|split; [exact F1'|split; [reflexivity|]]].
    + destruct H1 as (x & y & -> & Hx). exists x, y. split; [reflexivity|contradiction].
    + destruct H2 as (x & y & -> & Hx). exists x, y. split; [reflexivity|contradiction].
Qed.
Lemma dec_exactly n t : t = dec n <-> decimal n t.
Proof. split; [intros ->; apply dec_is|intro H; exact (decimal_one n t (dec n) H (dec_is n))]. Qed.
