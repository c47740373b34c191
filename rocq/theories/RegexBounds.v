(** RegexBounds: groups of a match lie inside the searched text. *)
From Verif Require Import Base Regex.

Section B.
  Context (inp : text) (N : nat).
  Definition gbound (g : groups) : Prop := Forall (fun p => fst (snd p) <= snd (snd p) <= N) g.

  Lemma strip_length p : forall l l', strip_prefix p l = Some l' -> length l = length p + length l'.
  Proof.
    induction p as [|x p IH]; intros l l'; cbn; [now intros [= ->]|]. destruct l as [|y l]; [discriminate|]. destruct (N.eqb x y); [|discriminate].
    intro H. apply IH in H. cbn. lia.
  Qed.

  Lemma m_bound r : forall (P : nat * groups -> Prop) i rest g k x, i + length rest = N -> gbound g ->
    (forall i' rest' g', i <= i' -> i' + length rest' = N -> gbound g' -> k i' rest' g' = Some x -> P x) ->
    m inp r i rest g k = Some x -> P x.
  Proof.
    induction r as [|p|a IHa b IHb|a IHa b IHb|gr a IHa|a IHa|n a IHa|n|a IHa|a IHa|]; intros P i rest g k x Hi Hg Hk; cbn [Regex.m].
    - now apply Hk.
    - destruct rest as [|c rest]; [discriminate|]. destruct (p c); [|discriminate]. apply Hk; cbn in *; auto; lia.
    - apply (IHa P i rest g _ x Hi Hg). intros i' rest' g' H1 H2 H3. apply (IHb P i' rest' g' k x H2 H3). intros. apply (Hk i'0 rest'0 g'0); auto; lia.
    - destruct (m inp a i rest g k) eqn:E; [|now apply IHb]. intros [= ->]. now apply (IHa P i rest g k x).
    - destruct gr.
      + generalize (length rest) at 1 as n. intro n. revert i rest g Hi Hg Hk. induction n as [|n IHn]; intros i rest g Hi Hg Hk; [now apply Hk|].
        destruct (m inp a i rest g _) eqn:E; [|now apply Hk]. intros [= ->]. revert E. apply (IHa P i rest g _ x Hi Hg).
        intros i' rest' g' H1 H2 H3. destruct (Nat.eqb i' i); [discriminate|]. apply IHn; auto. intros. apply (Hk i'0 rest'0 g'0); auto; lia.
      + generalize (length rest) at 1 as n. intro n. revert i rest g Hi Hg Hk. induction n as [|n IHn]; intros i rest g Hi Hg Hk.
        * destruct (k i rest g) eqn:E; [|discriminate]. intros [= ->]. now apply (Hk i rest g).
        * destruct (k i rest g) eqn:E; [intros [= ->]; now apply (Hk i rest g)|]. apply (IHa P i rest g _ x Hi Hg).
          intros i' rest' g' H1 H2 H3. destruct (Nat.eqb i' i); [discriminate|]. apply IHn; auto. intros. apply (Hk i'0 rest'0 g'0); auto; lia.
    - destruct (m inp a i rest g k) eqn:E; [|now apply Hk]. intros [= ->]. now apply (IHa P i rest g k x).
    - apply (IHa P i rest g _ x Hi Hg). intros i' rest' g' H1 H2 H3. apply Hk; auto. constructor; [cbn; lia|assumption].
    - destruct (gget g n) as [[b e]|]; [|discriminate]. destruct (strip_prefix _ rest) as [rest'|] eqn:E; [|discriminate]. apply strip_length in E. apply Hk; auto; lia.
    - destruct (m inp a i rest g _) as [[i' g']|] eqn:E; [|discriminate]. apply Hk; auto.
      apply (IHa (fun x => gbound (snd x)) i rest g _ _ Hi Hg) in E; [exact E|]. intros j r' g1 _ _ H [= <- <-]. exact H.
    - destruct (m inp a i rest g _); [discriminate|now apply Hk].
    - destruct rest as [|c [|? ?]]; [now apply Hk| |discriminate]. destruct (N.eqb c nl); [now apply Hk|discriminate].
  Qed.
End B.

Lemma gget_bound N g n s : gbound N g -> gget g n = Some s -> fst s <= snd s <= N.
Proof.
  induction g as [|[k t] g IH]; intros H; cbn; [discriminate|]. inversion_clear H as [|? ? H1 H2]. destruct (Nat.eqb k n); [intros [= ->]; exact H1|now apply IH].
Qed.
Theorem match_at_bound r inp i mo n s : i <= length inp -> match_at r inp i = Some mo -> mspan mo n = Some s -> fst s <= snd s <= length inp.
Proof.
  intros Hi. unfold match_at. destruct (m _ _ _ _ _ _) as [[e g]|] eqn:E; [|discriminate]. intros [= <-]. unfold mspan. cbn.
  apply gget_bound. revert E. apply (m_bound inp (length inp) r (fun x => gbound (length inp) (snd x))).
  - rewrite skipn_length. lia.
  - constructor.
  - intros i' r' g' _ _ H [= <- <-]. exact H.
Qed.
