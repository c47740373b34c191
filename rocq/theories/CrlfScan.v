(** CrlfScan: the scanner on texts with carriage returns before the line feeds (for C59). *)
From Verif Require Import Base Regex Grammar Types Scan TokenStep ScanProofs ScanFacts SpecText SpecSaid SpecEndings.

Lemma crlf_app a b : crlf (a ++ b) = crlf a ++ crlf b.
Proof. induction a as [|c a IH]; [reflexivity|]. cbn [crlf app]. destruct (N.eqb c nl); cbn [app]; now rewrite IH. Qed.
Lemma crlf_id a : forallb not_nl a = true -> crlf a = a.
Proof.
  induction a as [|c a IH]; [reflexivity|]. cbn [forallb crlf]. intro H. apply andb_true_iff in H as [H1 H2]. unfold not_nl in H1.
  destruct (N.eqb c nl); [discriminate|]. now rewrite IH.
Qed.

(** a text behind white space of its line: the carriage return belongs to that white space *)
Definition crl (r : text) : text := match r with [] => [] | c :: b => c :: crlf b end.
Definition bump (r : text) : nat := match r with [] => 0 | c :: _ => if N.eqb c nl then 1 else 0 end.
Lemma crl_crlf r : match r with c :: _ => c <> nl | [] => True end -> crlf r = crl r /\ bump r = 0.
Proof. destruct r as [|c r]; [auto|]. intro H. apply N.eqb_neq in H. cbn. now rewrite H. Qed.

Lemma spaces_crlf r : spaces (crlf r) = spaces r + bump (after_spaces r) /\ after_spaces (crlf r) = crl (after_spaces r).
Proof.
  unfold spaces, after_spaces. induction r as [|c r [IH1 IH2]]; [split; reflexivity|]. cbn [crlf]. destruct (N.eqb_spec c nl) as [->|Hc].
  - split; reflexivity.
  - cbn [takewhile dropwhile]. destruct (hspace c) eqn:E; cbn [length].
    + rewrite IH1, IH2. split; [lia|reflexivity].
    + cbn [bump crl]. apply N.eqb_neq in Hc. rewrite Hc. split; [reflexivity|reflexivity].
Qed.
Lemma blanks_crlf r : blanks (crlf r) = length (crlf (takewhile is_space r)) /\ after_blanks (crlf r) = crlf (after_blanks r).
Proof.
  unfold blanks, after_blanks. induction r as [|c r [IH1 IH2]]; [split; reflexivity|]. cbn [crlf]. destruct (N.eqb_spec c nl) as [->|Hc].
  - change (takewhile is_space (cr :: nl :: crlf r)) with (cr :: nl :: takewhile is_space (crlf r)).
    change (dropwhile is_space (cr :: nl :: crlf r)) with (dropwhile is_space (crlf r)).
    change (takewhile is_space (nl :: r)) with (nl :: takewhile is_space r). change (dropwhile is_space (nl :: r)) with (dropwhile is_space r).
    cbn [length crlf]. change (N.eqb nl nl) with true. cbn [length]. rewrite IH1, IH2. split; reflexivity.
  - apply N.eqb_neq in Hc. cbn [takewhile dropwhile]. destruct (is_space c); cbn [length crlf]; rewrite Hc; [|split; reflexivity].
    cbn [length]. rewrite IH1, IH2. split; reflexivity.
Qed.
(** [p] does not hold of line feeds, and of the carriage return as [q] says *)
Lemma takewhile_crlf (p : char -> bool) r : p nl = false ->
  takewhile p (crlf r) = takewhile p r ++ (if p cr then repeat cr (bump (dropwhile p r)) else []).
Proof.
  intro Hp. induction r as [|c r IH]; [destruct (p cr); reflexivity|]. cbn [crlf]. destruct (N.eqb_spec c nl) as [->|Hc].
  - cbn [takewhile dropwhile]. rewrite Hp. cbn [bump]. change (N.eqb nl nl) with true. destruct (p cr); reflexivity.
  - cbn [takewhile dropwhile]. destruct (p c); [cbn [app]; now rewrite IH|]. cbn [bump]. apply N.eqb_neq in Hc. rewrite Hc. destruct (p cr); reflexivity.
Qed.
Lemma line_crlf r : line_of (crlf r) = line_of r ++ repeat cr (bump (dropwhile not_nl r)).
Proof. unfold line_of. now rewrite takewhile_crlf. Qed.
Lemma rtrim_cr l n : rtrim (l ++ repeat cr n) = rtrim l.
Proof.
  unfold rtrim. rewrite rev_app_distr. f_equal. assert (forall m, rev (repeat cr m) = repeat cr m) as E.
  { induction m as [|m IH]; [reflexivity|]. cbn [repeat rev]. rewrite IH. symmetry. apply (repeat_cons m cr). }
  rewrite E. clear E. induction n as [|n IH]; [reflexivity|]. cbn [repeat app dropwhile]. change (hspace cr) with true. exact IH.
Qed.
Lemma line_crl r : exists n, line_of (crl r) = line_of r ++ repeat cr n.
Proof.
  destruct r as [|c r]; [exists 0; reflexivity|]. destruct (N.eqb_spec c nl) as [->|Hc]; [exists 0; reflexivity|].
  assert (crl (c :: r) = crlf (c :: r)) as -> by (symmetry; now apply crl_crlf). rewrite line_crlf. eauto.
Qed.

Section Text.
  Context (inp : text).
  Local Notation inp' := (crlf inp).

  Definition phi (i : nat) : nat := length (crlf (firstn i inp)).
  (** the end of a line *)
  Definition phe (e : nat) : nat := phi e + (if Nat.ltb e (length inp) then 1 else 0).

  Lemma pos_split i r : at_pos inp i r -> inp = firstn i inp ++ r /\ length (firstn i inp) = i.
  Proof. intros [H Hl]. split; [rewrite <- H; symmetry; apply firstn_skipn|]. rewrite firstn_length. lia. Qed.
  Lemma pos_crlf i r : at_pos inp i r -> at_pos inp' (phi i) (crlf r).
  Proof.
    intro H. destruct (pos_split _ _ H) as [E _]. unfold phi. split.
    - rewrite E at 2. rewrite crlf_app, skipn_app, skipn_all, Nat.sub_diag. reflexivity.
    - rewrite E at 2. rewrite crlf_app, app_length. lia.
  Qed.
  Lemma phi_app i a b : at_pos inp i (a ++ b) -> phi (i + length a) = phi i + length (crlf a).
  Proof.
    intro H. destruct (pos_split _ _ H) as [E Hl]. unfold phi.
    assert (firstn (i + length a) inp = firstn i inp ++ a) as ->.
    { rewrite E at 1. rewrite app_assoc. rewrite firstn_app. rewrite app_length, Hl, Nat.sub_diag, firstn_O, app_nil_r.
      apply firstn_all2. rewrite app_length. lia. }
    now rewrite crlf_app, app_length.
  Qed.
  Lemma phi_line i a b : at_pos inp i (a ++ b) -> forallb not_nl a = true -> phi (i + length a) = phi i + length a.
  Proof. intros H Ha. rewrite (phi_app _ _ _ H). now rewrite crlf_id. Qed.
  Lemma phi_char i c b : at_pos inp i (c :: b) -> c <> nl -> phi (S i) = S (phi i).
  Proof.
    intros H Hc. pose proof (phi_line i [c] b H) as E. cbn [length forallb] in E. rewrite !Nat.add_1_r in E. apply E. unfold not_nl. apply N.eqb_neq in Hc. now rewrite Hc.
  Qed.
  Lemma phi_nl i b : at_pos inp i (nl :: b) -> phi (S i) = S (S (phi i)).
  Proof. intro H. pose proof (phi_app i [nl] b H) as E. cbn [length] in E. rewrite Nat.add_1_r in E. rewrite E. cbn. lia. Qed.
  Lemma phi_spaces i r : at_pos inp i r -> phi (i + spaces r) = phi i + spaces r.
  Proof.
    intro H. rewrite (split_spaces r) in H. unfold spaces. apply (phi_line _ _ _ H). eapply forallb_impl; [|apply takewhile_all].
    intros c Hc. unfold hspace in Hc. now apply andb_true_iff in Hc.
  Qed.
  Lemma phi_blanks i r : at_pos inp i r -> phi (i + blanks r) = phi i + blanks (crlf r).
  Proof.
    intro H. destruct (blanks_crlf r) as [-> _]. unfold blanks. rewrite <- (take_drop_while is_space r) in H. apply (phi_app _ _ _ H).
  Qed.
  Lemma phe_at i r : at_pos inp i r -> match r with c :: _ => c = nl | [] => True end -> phe i = phi i + bump r.
  Proof.
    intros H Hr. unfold phe. apply at_pos_len in H. destruct r as [|c r]; cbn [length bump] in *.
    - assert (Nat.ltb i (length inp) = false) as -> by (apply Nat.ltb_ge; lia). reflexivity.
    - subst c. assert (Nat.ltb i (length inp) = true) as -> by (apply Nat.ltb_lt; lia). reflexivity.
  Qed.

  Lemma eol_crlf i r : at_pos inp i r -> eol (phi i) (crlf r) = phe (eol i r).
  Proof.
    intro H. assert (at_pos inp (eol i r) (dropwhile not_nl r)) as He.
    { rewrite <- (take_drop_while not_nl r) in H. now apply at_pos_app in H as [H _]. }
    rewrite (phe_at _ _ He).
    - unfold eol at 1. rewrite line_crlf, app_length, repeat_length. rewrite Nat.add_assoc. f_equal. unfold eol, line_of.
      rewrite <- (take_drop_while not_nl r) in H. symmetry. apply (phi_line _ _ _ H). apply takewhile_all.
    - pose proof (dropwhile_head_match not_nl r) as Hh. destruct (dropwhile not_nl r) as [|c r']; [exact I|]. unfold not_nl in Hh.
      destruct (N.eqb_spec c nl); [assumption|discriminate].
  Qed.

  Definition smap (s : span) : span := (phi (fst s), phi (snd s)).
  Definition kmap (k : kspan) : kspan := match k with Plain s => Plain (smap s) | Escaped b s x => Escaped (smap b) (smap s) (smap x) end.

  Lemma opt_value_crlf i r : at_pos inp i r -> opt_value (phi i) (crlf r) = option_map smap (opt_value i r).
  Proof.
    intro H. unfold opt_value. destruct (spaces_crlf r) as [-> ->]. destruct (line_crl (after_spaces r)) as [n ->]. rewrite rtrim_cr.
    pose proof (at_pos_spaces _ _ _ H) as H1.
    destruct (rtrim (line_of (after_spaces r))) as [|c v] eqn:E; [reflexivity|]. cbn [option_map]. unfold smap. cbn [fst snd].
    destruct (rtrim_decomp (line_of (after_spaces r))) as (t & Et & _). rewrite E in Et.
    assert (bump (after_spaces r) = 0) as ->.
    { destruct (after_spaces r) as [|d r']; [reflexivity|]. cbn [bump]. unfold line_of in Et. cbn in Et. unfold not_nl in Et. destruct (N.eqb d nl); [discriminate|reflexivity]. }
    rewrite Nat.add_0_r, <- (phi_spaces _ _ H). 
    assert (exists b, after_spaces r = (c :: v) ++ b) as (b & Eb).
    { exists (t ++ dropwhile not_nl (after_spaces r)). rewrite app_assoc, <- Et. symmetry. apply take_drop_while. }
    rewrite Eb in H1. rewrite (phi_line _ _ _ H1); [reflexivity|].
    pose proof (line_of_no_nl (after_spaces r)) as Hn. rewrite Et, forallb_app in Hn. now apply andb_true_iff in Hn.
  Qed.

  Definition stmap (x : option (span * span) * nat) : option (span * span) * nat :=
    (option_map (fun ot => (smap (fst ot), smap (snd ot))) (fst x), phe (snd x)).
  Lemma section_crlf i r : at_pos inp i r -> section_tail (phi i) (crlf r) = option_map stmap (section_tail i r).
  Proof.
    intro H. unfold section_tail. destruct (spaces_crlf r) as [-> ->]. pose proof (at_pos_spaces _ _ _ H) as H1. pose proof (phi_spaces _ _ H) as Hp.
    destruct (after_spaces r) as [|c r1]; cbn [crl bump].
    - cbn [option_map]. unfold stmap. cbn [fst snd option_map]. rewrite (phe_at _ _ H1 I), Hp. do 2 f_equal. cbn [bump]. lia.
    - destruct (N.eqb_spec c nl) as [->|Hc].
      + cbn [option_map]. unfold stmap. cbn [fst snd option_map]. rewrite (phe_at _ _ H1 eq_refl), Hp. do 2 f_equal. cbn [bump]. change (N.eqb nl nl) with true. cbv iota. lia.
      + rewrite Nat.add_0_r, <- Hp. destruct (N.eqb c c_lt); [|reflexivity].
        pose proof (at_pos_cons _ _ _ _ H1) as [H2 _]. pose proof (phi_char _ _ _ H1 Hc) as P1. rewrite <- (Nat.add_1_r (i + spaces r)) in P1, H2.
        assert (forall n r2, at_pos inp (i + spaces r + n) r2 -> phi (i + spaces r + n) = phi (i + spaces r) + n ->
          match opt_value (phi (i + spaces r) + n) (crlf r2) with
          | Some t => Some (Some ((phi (i + spaces r), phi (i + spaces r) + n), t), eol (phi (i + spaces r) + n) (crlf r2)) | None => None end
          = option_map stmap (match opt_value (i + spaces r + n) r2 with
          | Some t => Some (Some ((i + spaces r, i + spaces r + n), t), eol (i + spaces r + n) r2) | None => None end)) as K.
        { intros n r2 Hn En. rewrite <- En, (opt_value_crlf _ _ Hn). destruct (opt_value _ r2) as [t|]; [|reflexivity].
          cbn [option_map]. unfold stmap. cbn [fst snd option_map]. rewrite (eol_crlf _ _ Hn). reflexivity. }
        destruct r1 as [|d r2]; [exact (K 1 [] H2 ltac:(lia))|]. cbn [crlf]. destruct (N.eqb_spec d nl) as [->|Hd].
        * change (N.eqb cr c_lt) with false. change (N.eqb nl c_lt) with false. cbv iota. exact (K 1 (nl :: r2) H2 ltac:(lia)).
        * destruct (N.eqb d c_lt).
          -- pose proof (at_pos_cons _ _ _ _ H2) as [H3 _]. pose proof (phi_char _ _ _ H2 Hd) as P2. replace (S (i + spaces r + 1)) with (i + spaces r + 2) in H3, P2 by lia.
             exact (K 2 r2 H3 ltac:(lia)).
          -- replace (d :: crlf r2) with (crlf (d :: r2)) by (cbn [crlf]; apply N.eqb_neq in Hd; now rewrite Hd). exact (K 1 (d :: r2) H2 ltac:(lia)).
  Qed.

  Definition ltmap (x : ltail * nat) : ltail * nat :=
    (match fst x with
     | LField o v => LField (smap o) (option_map smap v)
     | LEntry o v => LEntry (smap o) (option_map smap v)
     | LCopy o t => LCopy (smap o) (smap t)
     end, phe (snd x)).
  Lemma late_crlf i r : at_pos inp i r -> late_tail (phi i) (crlf r) = option_map ltmap (late_tail i r).
  Proof.
    intro H. unfold late_tail. pose proof (phi_blanks _ _ H) as Hp. destruct (blanks_crlf r) as [_ ->]. pose proof (at_pos_blanks _ _ _ H) as H1. rewrite <- Hp.
    pose proof (dropwhile_head_match is_space r) as Hh. fold (after_blanks r) in Hh.
    destruct (after_blanks r) as [|c r1]; [reflexivity|]. assert (c <> nl) as Hc by (intros ->; discriminate).
    cbn [crlf]. destruct (N.eqb_spec c nl) as [|_]; [contradiction|].
    pose proof (at_pos_cons _ _ _ _ H1) as [H2 _]. pose proof (phi_char _ _ _ H1 Hc) as P1. rewrite <- (Nat.add_1_r (i + blanks r)) in P1, H2.
    rewrite <- (Nat.add_1_r (phi _)) in P1. rewrite <- P1.
    destruct (N.eqb c c_colon).
    { cbn [option_map]. unfold ltmap. cbn [fst snd]. now rewrite (opt_value_crlf _ _ H2), (eol_crlf _ _ H2). }
    destruct (N.eqb c c_eq).
    { cbn [option_map]. unfold ltmap. cbn [fst snd]. now rewrite (opt_value_crlf _ _ H2), (eol_crlf _ _ H2). }
    destruct (N.eqb c c_lt); [|reflexivity].
    pose proof (phi_blanks _ _ H2) as Hp2. destruct (blanks_crlf r1) as [_ ->]. pose proof (at_pos_blanks _ _ _ H2) as H3. rewrite <- Hp2.
    rewrite (opt_value_crlf _ _ H3), (eol_crlf _ _ H3). destruct (opt_value _ _); reflexivity.
  Qed.

  Lemma strip_crlf p r : forallb not_nl p = true -> last p nl <> cr -> strip_prefix p (crlf r) = option_map crlf (strip_prefix p r).
  Proof.
    revert r. induction p as [|x p IH]; intros r Hp Hl; [reflexivity|]. cbn [forallb] in Hp. apply andb_true_iff in Hp as [Hx Hp].
    destruct r as [|c r]; [reflexivity|]. cbn [crlf]. destruct (N.eqb_spec c nl) as [->|Hc].
    - assert (N.eqb x nl = false) as Hxn by (unfold not_nl in Hx; now destruct (N.eqb x nl)).
      cbn [strip_prefix]. rewrite Hxn. destruct (N.eqb_spec x cr) as [->|]; [|reflexivity].
      destruct p as [|y p]; [now elim Hl|]. cbn [forallb] in Hp. apply andb_true_iff in Hp as [Hy _]. unfold not_nl in Hy. cbn [strip_prefix]. destruct (N.eqb y nl); [discriminate|reflexivity].
    - cbn [strip_prefix]. destruct (N.eqb x c); [|reflexivity]. apply IH; [assumption|]. destruct p; [discriminate|exact Hl].
  Qed.
  Lemma strip_crl p r : p <> [] -> forallb not_nl p = true -> last p nl <> cr -> strip_prefix p (crl r) = option_map crlf (strip_prefix p r).
  Proof.
    intros Hn Hp Hl. destruct r as [|c r]; [destruct p; [congruence|reflexivity]|]. destruct (N.eqb_spec c nl) as [->|Hc].
    - destruct p as [|x p]; [congruence|]. cbn [forallb] in Hp. apply andb_true_iff in Hp as [Hx Hp]. unfold not_nl in Hx.
      cbn [crl strip_prefix]. destruct (N.eqb x nl); [discriminate|reflexivity].
    - rewrite <- (strip_crlf p (c :: r) Hp Hl). f_equal. symmetry. now apply crl_crlf.
  Qed.
  Lemma strip_head p r r2 : p <> [] -> forallb not_nl p = true -> strip_prefix p r = Some r2 -> bump r = 0.
  Proof.
    intros Hn Hp H. apply strip_prefix_app in H. destruct p as [|x p]; [congruence|]. cbn [forallb] in Hp. apply andb_true_iff in Hp as [Hx Hp]. unfold not_nl in Hx.
    subst r. cbn. destruct (N.eqb x nl); [discriminate|reflexivity].
  Qed.

  Section Keys.
    Context {A : Type} (tail : nat -> text -> option A) (g : A -> A)
      (Ht : forall i r, at_pos inp i r -> tail (phi i) (crlf r) = option_map g (tail i r)).

    Definition ckmap (x : nat * nat * A) : nat * nat * A := match x with (ke, tb, y) => (phi ke, phi tb, g y) end.
    Lemma here_crlf ticks i r : ticks <> [] -> forallb not_nl ticks = true -> last ticks nl <> cr -> at_pos inp i r ->
      match strip_prefix ticks (after_spaces (crlf r)) with Some r2 => tail (phi i + spaces (crlf r) + length ticks) r2 | None => None end
      = option_map g (match strip_prefix ticks (after_spaces r) with Some r2 => tail (i + spaces r + length ticks) r2 | None => None end) /\
      (forall r2, strip_prefix ticks (after_spaces r) = Some r2 -> spaces (crlf r) = spaces r /\ phi (i + spaces r) = phi i + spaces r).
    Proof.
      intros Hn Hno Hl H. destruct (spaces_crlf r) as [-> ->]. rewrite (strip_crl _ _ Hn Hno Hl).
      destruct (strip_prefix ticks (after_spaces r)) as [r2|] eqn:E; cbn [option_map]; [|split; [reflexivity|discriminate]].
      rewrite (strip_head _ _ _ Hn Hno E), Nat.add_0_r. rewrite <- (phi_spaces _ _ H). split; [|intros; split; reflexivity].
      apply at_pos_spaces in H. apply strip_prefix_app in E. rewrite E in H. rewrite <- (phi_line _ _ _ H Hno). apply at_pos_app in H as [H _]. now apply Ht.
    Qed.
    Lemma close_key_crlf ticks i r : ticks <> [] -> forallb not_nl ticks = true -> last ticks nl <> cr -> at_pos inp i r ->
      close_key tail ticks (phi i) (crlf r) = option_map ckmap (close_key tail ticks i r).
    Proof.
      intros Hn Hno Hl. revert i. induction r as [|c r IH]; intros i H.
      - destruct (here_crlf ticks i [] Hn Hno Hl H) as [K1 K2]. cbn [crlf] in *. cbn [close_key].
        destruct ticks as [|x ticks]; [congruence|]. unfold after_spaces. cbn [dropwhile strip_prefix]. reflexivity.
      - destruct (here_crlf ticks i (c :: r) Hn Hno Hl H) as [K1 K2]. destruct (N.eqb_spec c nl) as [->|Hc].
        + assert (crlf (nl :: r) = cr :: nl :: crlf r) as Ec by reflexivity. rewrite Ec in *. cbn [close_key]. rewrite K1.
          destruct (match strip_prefix ticks (after_spaces (nl :: r)) with Some r2 => _ | None => None end) as [y|] eqn:E; cbn [option_map].
          * destruct (strip_prefix ticks (after_spaces (nl :: r))) as [r2|] eqn:E2; [|discriminate]. destruct (K2 r2 eq_refl) as [K3 K4]. cbn [ckmap]. now rewrite K3, K4.
          * change (not_nl nl) with false. change (not_nl cr) with true. cbv iota.
            change (after_spaces (nl :: crlf r)) with (nl :: crlf r).
            destruct ticks as [|x ticks]; [congruence|]. cbn [strip_prefix]. cbn [forallb] in Hno. apply andb_true_iff in Hno as [Hx _]. unfold not_nl in Hx. destruct (N.eqb x nl); [discriminate|]. reflexivity.
        + assert (crlf (c :: r) = c :: crlf r) as Ec by (cbn [crlf]; destruct (N.eqb_spec c nl); [contradiction|reflexivity]). rewrite Ec in *. cbn [close_key]. rewrite K1.
          destruct (match strip_prefix ticks (after_spaces (c :: r)) with Some r2 => _ | None => None end) as [y|] eqn:E; cbn [option_map].
          * destruct (strip_prefix ticks (after_spaces (c :: r))) as [r2|] eqn:E2; [|discriminate]. destruct (K2 r2 eq_refl) as [K3 K4]. cbn [ckmap]. now rewrite K3, K4.
          * destruct (not_nl c); [|reflexivity]. pose proof (at_pos_cons _ _ _ _ H) as [H1 _]. rewrite <- (phi_char _ _ _ H Hc). now apply IH.
    Qed.

    Lemma close_key_at ticks i r ke tb x : at_pos inp i r -> close_key tail ticks i r = Some (ke, tb, x) -> exists r2, at_pos inp tb (ticks ++ r2).
    Proof.
      revert i. induction r as [|c r IH]; intros i H; cbn [close_key].
      - destruct (strip_prefix ticks (after_spaces [])) as [r2|] eqn:E; [|discriminate]. destruct (tail _ r2); [|discriminate]. intros [= <- <- <-].
        apply strip_prefix_app in E. apply at_pos_spaces in H. rewrite E in H. eauto.
      - destruct (strip_prefix ticks (after_spaces (c :: r))) as [r2|] eqn:E.
        + destruct (tail _ r2).
          * intros [= <- <- <-]. apply strip_prefix_app in E. apply at_pos_spaces in H. rewrite E in H. eauto.
          * destruct (not_nl c); [|discriminate]. apply IH. now apply at_pos_cons in H.
        + destruct (not_nl c); [|discriminate]. apply IH. now apply at_pos_cons in H.
    Qed.

    Definition skmap (x : kspan * A) : kspan * A := (kmap (fst x), g (snd x)).
    Lemma scan_key_crlf first char_ok i r : (forall c, char_ok c = true -> not_nl c = true) -> (forall c, first c = true -> is_space c = false) ->
      at_pos inp i r -> scan_key first char_ok tail (phi i) (crlf r) = option_map skmap (scan_key first char_ok tail i r).
    Proof.
      intros Hchar Hfirst H. unfold scan_key. destruct r as [|c r]; [reflexivity|]. cbn [crlf]. destruct (N.eqb_spec c nl) as [->|Hc].
      - assert (first nl = false) as -> by (destruct (first nl) eqn:E; [now apply Hfirst in E|reflexivity]).
        assert (first cr = false) as -> by (destruct (first cr) eqn:E; [now apply Hfirst in E|reflexivity]). reflexivity.
      - assert (char_ok nl = false) as Hcn by (destruct (char_ok nl) eqn:E; [now apply Hchar in E|reflexivity]).
        destruct (first c) eqn:Ef.
        + assert (rtrim (c :: takewhile char_ok (crlf r)) = rtrim (c :: takewhile char_ok r)) as ->.
          { rewrite (takewhile_crlf _ _ Hcn). destruct (char_ok cr); [|now rewrite app_nil_r]. exact (rtrim_cr (c :: takewhile char_ok r) _). }
          destruct (rtrim_decomp (c :: takewhile char_ok r)) as (t & Et & _).
          assert (forallb not_nl (rtrim (c :: takewhile char_ok r)) = true) as Hnn.
          { assert (forallb not_nl (c :: takewhile char_ok r) = true) as Hx.
            { cbn [forallb]. apply andb_true_iff. split; [unfold not_nl; apply N.eqb_neq in Hc; now rewrite Hc|]. eapply forallb_impl; [exact Hchar|apply takewhile_all]. }
            rewrite Et, forallb_app in Hx. now apply andb_true_iff in Hx. }
          set (k := rtrim (c :: takewhile char_ok r)) in *.
          assert (c :: r = k ++ (t ++ dropwhile char_ok r)) as Er by (rewrite app_assoc, <- Et; cbn [app]; now rewrite take_drop_while).
          assert (c :: crlf r = crlf (c :: r)) as -> by (cbn [crlf]; destruct (N.eqb_spec c nl); [contradiction|reflexivity]).
          rewrite Er in H |- *. rewrite crlf_app, (crlf_id k Hnn), !skipn_app, !skipn_all, Nat.sub_diag. cbn [skipn app].
          rewrite <- (phi_line _ _ _ H Hnn). apply at_pos_app in H as [H _]. rewrite (Ht _ _ H). destruct (tail _ _); reflexivity.
        + destruct (N.eqb_spec c c_tick) as [->|]; [|reflexivity]. cbv zeta.
          assert (c_tick :: crlf r = crlf (c_tick :: r)) as -> by reflexivity.
          assert (takewhile (fun x => N.eqb x c_tick) (crlf (c_tick :: r)) = takewhile (fun x => N.eqb x c_tick) (c_tick :: r)) as Etk.
          { rewrite takewhile_crlf by reflexivity. change (N.eqb cr c_tick) with false. cbv iota. apply app_nil_r. }
          assert (dropwhile (fun x => N.eqb x c_tick) (crlf (c_tick :: r)) = crlf (dropwhile (fun x => N.eqb x c_tick) (c_tick :: r))) as Edk.
          { clear. induction (c_tick :: r) as [|c l IH]; [reflexivity|]. cbn [crlf]. destruct (N.eqb_spec c nl) as [->|Hc]; [reflexivity|].
            cbn [dropwhile]. destruct (N.eqb c c_tick); [exact IH|]. cbn [crlf]. destruct (N.eqb_spec c nl); [contradiction|reflexivity]. }
          rewrite Etk, Edk. pose proof (takewhile_op inp i c_tick r H) as (H1 & _ & Hn).
          set (ticks := takewhile (fun x => N.eqb x c_tick) (c_tick :: r)) in *. set (r1 := dropwhile (fun x => N.eqb x c_tick) (c_tick :: r)) in *.
          assert (ticks = repeat c_tick (length ticks)) as Htk by apply repeat_takewhile.
          assert (ticks <> []) as Htn by (destruct ticks; [cbn in Hn; lia|discriminate]).
          assert (forallb not_nl ticks = true) as Hto by (rewrite Htk; apply not_nl_in; intro K; apply repeat_spec in K; discriminate).
          assert (last ticks nl <> cr) as Htl.
          { pose proof (last_in ticks nl Htn) as K. rewrite Htk in K at 2. apply repeat_spec in K. rewrite K. discriminate. }
          assert (c_tick :: r = ticks ++ r1) as Er by (symmetry; apply take_drop_while). rewrite Er in H.
          pose proof (phi_line _ _ _ H Hto) as P1. rewrite <- P1. pose proof (at_pos_app _ _ _ _ H) as [H2 _].
          destruct (spaces_crlf r1) as [-> ->]. pose proof (phi_spaces _ _ H2) as P2. pose proof (at_pos_spaces _ _ _ H2) as H3.
          destruct (after_spaces r1) as [|d r2]; [reflexivity|]. cbn [crl bump]. destruct (N.eqb_spec d nl) as [->|Hd]; [reflexivity|].
          rewrite Nat.add_0_r, <- P2. pose proof (at_pos_cons _ _ _ _ H3) as [H4 _]. rewrite <- (phi_char _ _ _ H3 Hd), (close_key_crlf ticks _ _ Htn Hto Htl H4).
          destruct (close_key tail ticks (S (i + length ticks + spaces r1)) r2) as [[[ke tb] x]|] eqn:Ek; [|reflexivity].
          cbn [option_map ckmap]. unfold skmap. cbn [fst snd kmap]. unfold smap. cbn [fst snd]. rewrite P1.
          assert (phi (tb + length ticks) = phi tb + length ticks) as ->; [|reflexivity].
          destruct (close_key_at ticks _ _ _ _ _ H4 Ek) as (r3 & H5). exact (phi_line _ _ _ H5 Hto).
    Qed.
  End Keys.

  Definition tmap (t : token) : token :=
    match t with
    | TEmpty p => TEmpty (phe p)
    | TDirect o v => TDirect (smap o) (option_map smap v)
    | TSpaced o v => TSpaced (smap o) (option_map smap v)
    | TComment o v => TComment (smap o) (option_map smap v)
    | TItem o v => TItem (smap o) (option_map smap v)
    | TMultiline o k => TMultiline (smap o) (smap k)
    | TSection o k t => TSection (smap o) (kmap k) (option_map (fun ot => (smap (fst ot), smap (snd ot))) t)
    | TField k o v => TField (kmap k) (smap o) (option_map smap v)
    | TEntry k o v => TEntry (kmap k) (smap o) (option_map smap v)
    | TCopy k o t => TCopy (kmap k) (smap o) (smap t)
    end.
  Definition scmap (x : token * nat) : token * nat := (tmap (fst x), phe (snd x)).

  Lemma run_crlf (c : char) r : c <> nl -> c <> cr ->
    takewhile (fun x => N.eqb x c) (crlf r) = takewhile (fun x => N.eqb x c) r /\
    dropwhile (fun x => N.eqb x c) (crlf r) = crlf (dropwhile (fun x => N.eqb x c) r).
  Proof.
    intros Hn Hr. split.
    - rewrite takewhile_crlf by (apply N.eqb_neq; congruence). assert (N.eqb cr c = false) as -> by (apply N.eqb_neq; congruence). apply app_nil_r.
    - induction r as [|d l IH]; [reflexivity|]. cbn [crlf]. destruct (N.eqb_spec d nl) as [->|Hd].
      + cbn [dropwhile]. assert (N.eqb cr c = false) as -> by (apply N.eqb_neq; congruence). assert (N.eqb nl c = false) as -> by (apply N.eqb_neq; congruence). reflexivity.
      + cbn [dropwhile]. destruct (N.eqb d c); [exact IH|]. cbn [crlf]. destruct (N.eqb_spec d nl); [contradiction|reflexivity].
  Qed.
  Lemma run_phi (c : char) i r : c <> nl -> at_pos inp i r ->
    phi (i + length (takewhile (fun x => N.eqb x c) r)) = phi i + length (takewhile (fun x => N.eqb x c) r) /\
    at_pos inp (i + length (takewhile (fun x => N.eqb x c) r)) (dropwhile (fun x => N.eqb x c) r).
  Proof.
    intros Hn H. rewrite <- (take_drop_while (fun x => N.eqb x c) r) in H. split; [|now apply at_pos_app in H as [H _]]. apply (phi_line _ _ _ H).
    eapply forallb_impl; [|apply takewhile_all]. intros x Hx. apply N.eqb_eq in Hx as ->. unfold not_nl. apply N.eqb_neq in Hn. now rewrite Hn.
  Qed.

  Theorem scan_crlf i r : at_pos inp i r -> scan (phi i) (crlf r) = option_map scmap (scan i r).
  Proof.
    intro H0. unfold scan. destruct (spaces_crlf r) as [-> ->]. pose proof (at_pos_spaces _ _ _ H0) as H. pose proof (phi_spaces _ _ H0) as Hp. rewrite Nat.add_assoc.
    revert H Hp. generalize (i + spaces r) as p, (after_spaces r) as r0. intros p r0 H Hp. rewrite <- Hp.
    destruct r0 as [|c r1].
    { cbn [crl bump option_map]. unfold scmap. cbn [fst snd tmap]. rewrite (phe_at _ _ H I). reflexivity. }
    cbn [crl bump]. destruct (N.eqb_spec c nl) as [->|Hc].
    { cbn [option_map]. unfold scmap. cbn [fst snd tmap]. rewrite (phe_at _ _ H eq_refl). reflexivity. }
    rewrite Nat.add_0_r. pose proof (phi_char _ _ _ H Hc) as P1. pose proof (at_pos_cons _ _ _ _ H) as [H1 _]. rewrite <- (Nat.add_1_r p) in P1, H1. rewrite <- (Nat.add_1_r (phi p)) in P1.
    assert (c :: crlf r1 = crlf (c :: r1)) as Ec by (cbn [crlf]; destruct (N.eqb_spec c nl); [contradiction|reflexivity]). rewrite Ec, (eol_crlf _ _ H).
    rewrite <- P1, (opt_value_crlf _ _ H1).
    destruct (N.eqb c c_pipe); [reflexivity|]. destruct (N.eqb c c_bslash); [reflexivity|]. destruct (N.eqb c c_gt); [reflexivity|].
    destruct (N.eqb c c_dash).
    { destruct (run_crlf c_dash (c :: r1) ltac:(discriminate) ltac:(discriminate)) as [-> ->].
      destruct (Nat.eqb _ 1); [reflexivity|]. destruct (run_phi c_dash p (c :: r1) ltac:(discriminate) H) as [P2 H2].
      rewrite <- P2, (opt_value_crlf _ _ H2). destruct (opt_value _ _); reflexivity. }
    destruct (N.eqb c c_hash).
    { destruct (run_crlf c_hash (c :: r1) ltac:(discriminate) ltac:(discriminate)) as [-> ->]. destruct (run_phi c_hash p (c :: r1) ltac:(discriminate) H) as [P2 H2].
      set (r2 := dropwhile (fun x => N.eqb x c_hash) (c :: r1)) in *. set (n := length (takewhile (fun x => N.eqb x c_hash) (c :: r1))) in *.
      rewrite <- P2. rewrite <- (phi_blanks _ _ H2). destruct (blanks_crlf r2) as [_ ->]. apply at_pos_blanks in H2.
      rewrite (scan_key_crlf section_tail stmap section_crlf skey_first skey_char _ _ skey_char_nl skey_first_space H2).
      destruct (scan_key _ _ _ _ _) as [[k [t e]]|]; reflexivity. }
    rewrite (scan_key_crlf late_tail ltmap late_crlf key_first key_char _ _ key_char_nl key_first_space H).
    destruct (scan_key _ _ _ _ _) as [[k [[o v|o v|o t] e]]|]; reflexivity.
  Qed.

  (** * Ends of multiline fields *)

  Definition clmap (x : span * span * nat) : span * span * nat := match x with (o, k, e) => (smap o, smap k, phe e) end.
  Lemma closing_crlf op key i r : op <> [] -> forallb not_nl op = true -> last op nl <> cr ->
    key <> [] -> forallb not_nl key = true -> last key nl <> cr -> at_pos inp i r ->
    closing_line op key (phi i) (crlf r) = option_map clmap (closing_line op key i r).
  Proof.
    intros O1 O2 O3 K1 K2 K3 H. unfold closing_line. destruct (spaces_crlf r) as [-> ->]. rewrite (strip_crl _ _ O1 O2 O3).
    destruct (strip_prefix op (after_spaces r)) as [r1|] eqn:E1; [|reflexivity]. cbn [option_map].
    rewrite (strip_head _ _ _ O1 O2 E1), Nat.add_0_r, <- (phi_spaces _ _ H). apply at_pos_spaces in H. apply strip_prefix_app in E1. rewrite E1 in H.
    pose proof (phi_line _ _ _ H O2) as P1. apply at_pos_app in H as [H _]. rewrite <- P1.
    assert (match crlf r1 with c :: _ => N.eqb c c_dash | [] => false end = match r1 with c :: _ => N.eqb c c_dash | [] => false end) as ->.
    { destruct r1 as [|d r2]; [reflexivity|]. cbn [crlf]. destruct (N.eqb_spec d nl) as [->|]; reflexivity. }
    destruct (match r1 with c :: _ => N.eqb c c_dash | [] => false end); [reflexivity|].
    destruct (spaces_crlf r1) as [-> ->]. rewrite (strip_crl _ _ K1 K2 K3).
    destruct (strip_prefix key (after_spaces r1)) as [r2|] eqn:E2; [|reflexivity]. cbn [option_map].
    rewrite (strip_head _ _ _ K1 K2 E2), Nat.add_0_r, <- (phi_spaces _ _ H). apply at_pos_spaces in H. apply strip_prefix_app in E2. rewrite E2 in H.
    pose proof (phi_line _ _ _ H K2) as P2. apply at_pos_app in H as [H _]. rewrite <- P2, (eol_crlf _ _ H), line_crlf, forallb_app.
    assert (forallb hspace (repeat cr (bump (dropwhile not_nl r2))) = true) as ->.
    { generalize (bump (dropwhile not_nl r2)). induction n as [|n IH]; [reflexivity|exact IH]. }
    rewrite andb_true_r. destruct (forallb hspace (line_of r2)); reflexivity.
  Qed.
  Definition fcmap (x : nat * (span * span * nat)) : nat * (span * span * nat) := (phe (fst x), clmap (snd x)).
  Lemma find_crlf op key i r : op <> [] -> forallb not_nl op = true -> last op nl <> cr ->
    key <> [] -> forallb not_nl key = true -> last key nl <> cr -> at_pos inp i r ->
    find_closing op key (phi i) (crlf r) = option_map fcmap (find_closing op key i r).
  Proof.
    intros O1 O2 O3 K1 K2 K3. revert i. induction r as [|c r IH]; intros i H; [reflexivity|].
    pose proof (at_pos_cons _ _ _ _ H) as [H1 _]. cbn [crlf find_closing]. destruct (N.eqb_spec c nl) as [->|Hc].
    - cbn [find_closing]. change (N.eqb cr nl) with false. change (N.eqb nl nl) with true. cbv iota.
      rewrite <- (phi_nl _ _ H). rewrite (closing_crlf op key _ _ O1 O2 O3 K1 K2 K3 H1). rewrite (IH _ H1).
      destruct (closing_line op key (S i) r) as [x|]; [|reflexivity]. cbn [option_map]. unfold fcmap. cbn [fst snd]. rewrite (phe_at _ _ H eq_refl). cbn [bump].
      change (N.eqb nl nl) with true. cbv iota. now rewrite Nat.add_1_r.
    - cbn [find_closing]. destruct (N.eqb_spec c nl); [contradiction|]. rewrite <- (phi_char _ _ _ H Hc). rewrite (IH _ H1). reflexivity.
  Qed.

  (** * Contents *)

  Lemma slice_pos a b : a <= b -> b <= length inp -> at_pos inp a (slice inp a b ++ skipn b inp) /\ length (slice inp a b) = b - a.
  Proof.
    intros H1 H2. unfold slice. split.
    - split; [|lia]. rewrite <- (firstn_skipn (b - a) (skipn a inp)) at 1. f_equal. rewrite <- skipn_plus. f_equal. lia.
    - rewrite firstn_length, skipn_length. lia.
  Qed.
  Lemma slice_crlf a b : a <= b -> b <= length inp -> slice inp' (phi a) (phi b) = crlf (slice inp a b).
  Proof.
    intros H1 H2. destruct (slice_pos a b H1 H2) as [H Hl]. pose proof (phi_app _ _ _ H) as P. rewrite Hl in P. replace (a + (b - a)) with b in P by lia.
    apply pos_crlf in H. rewrite crlf_app in H. apply at_pos_app in H as [_ H]. unfold sub in H. cbn [fst snd] in H. now rewrite P.
  Qed.
  Lemma phi_within a b : a <= b -> b <= length inp -> ~ In nl (slice inp a b) -> phi b = phi a + (b - a).
  Proof.
    intros H1 H2 H3. destruct (slice_pos a b H1 H2) as [H Hl]. pose proof (phi_line _ _ _ H) as P. rewrite Hl in P. replace (a + (b - a)) with b in P by lia.
    apply P. now apply not_nl_in.
  Qed.
  Lemma range_crlf s : fst s <= snd s -> snd s <= length inp -> ~ In nl (at_range inp s) -> at_range inp' (smap s) = at_range inp s.
  Proof. intros H1 H2 H3. unfold at_range, smap. cbn [fst snd]. rewrite slice_crlf by assumption. apply crlf_id. now apply not_nl_in. Qed.
  Lemma op_width c lo hi o : op_ok inp lo hi c o -> hi <= length inp -> c <> nl -> SpecSaid.width (smap o) = SpecSaid.width o /\ at_range inp' (smap o) = at_range inp o.
  Proof.
    intros [(H1 & H2 & H3) H4] Hh Hc. assert (~ In nl (slice inp (fst o) (snd o))) as Hn.
    { unfold sub in H4. rewrite H4. intro K. apply repeat_spec in K. congruence. }
    split; [|apply range_crlf; [lia|lia|exact Hn]]. unfold SpecSaid.width, smap. cbn [fst snd]. rewrite (phi_within (fst o) (snd o)); [lia|lia|lia|exact Hn].
  Qed.
  Lemma value_crlf lo hi v : value_ok inp lo hi v -> hi <= length inp -> text_at inp' (option_map smap v) = text_at inp v.
  Proof.
    destruct v as [s|]; [|reflexivity]. intros ((H1 & H2 & H3) & _ & _ & _ & H4) Hh. cbn [option_map text_at]. f_equal. apply range_crlf; [lia|lia|exact H4].
  Qed.
  Lemma span_crlf lo hi s : value_ok inp lo hi (Some s) -> hi <= length inp -> at_range inp' (smap s) = at_range inp s.
  Proof. intros H Hh. pose proof (value_crlf lo hi (Some s) H Hh) as E. now injection E. Qed.
  Lemma key_crlf lo k : key_ok inp lo k -> key_hi k <= length inp -> at_range inp' (key_at (kmap k)) = at_range inp (key_at k).
  Proof.
    destruct k as [s|b s x]; cbn [key_ok key_hi kmap key_at].
    - intros ((H1 & H2 & H3) & _ & _ & _ & H4) Hh. apply range_crlf; [lia|lia|exact H4].
    - intros (_ & (H1 & H2 & H3) & (H5 & H6 & H7) & (_ & _ & _ & H4) & _) Hh. apply range_crlf; [lia|lia|exact H4].
  Qed.

  Lemma meaning_crlf i e t : tok_ok inp i e t -> e <= length inp -> (match t with TComment _ _ => single_line inp (i, e) | _ => True end) -> i <= e ->
    meaning inp' (phi i) (tmap t) = meaning inp i t.
  Proof.
    intros Ht He Hs Hie. destruct t as [p|o v|o v|o v|o v|o k|o k t|k o v|k o v|k o t]; cbn [tok_ok tmap meaning] in *.
    - reflexivity.
    - destruct Ht as (_ & _ & H). now rewrite (value_crlf _ _ _ H He).
    - destruct Ht as (_ & _ & H). now rewrite (value_crlf _ _ _ H He).
    - destruct Ht as (O & _ & H). rewrite (value_crlf _ _ _ H He). destruct v as [s|]; [|reflexivity]. cbn [option_map]. do 2 f_equal.
      destruct O as ((O1 & O2 & O3) & _). destruct H as ((H1 & H2 & H3) & _). unfold smap. cbn [fst].
      rewrite (phi_within i (fst s)); [lia|lia|lia|]. intro Hin. apply Hs. unfold at_range. cbn [fst snd].
      unfold slice in *. replace (firstn (e - i) (skipn i inp)) with (firstn (fst s - i) (firstn (e - i) (skipn i inp)) ++ skipn (fst s - i) (firstn (e - i) (skipn i inp))) by apply firstn_skipn.
      apply in_or_app. left. rewrite firstn_firstn. replace (Nat.min (fst s - i) (e - i)) with (fst s - i) by lia. exact Hin.
    - destruct Ht as (_ & _ & H). now rewrite (value_crlf _ _ _ H He).
    - reflexivity.
    - destruct Ht as (O & K & Kh & T). destruct (op_width _ _ _ _ O He ltac:(discriminate)) as [-> _]. rewrite (key_crlf _ _ K) by lia.
      destruct t as [[o2 s]|]; [|reflexivity]. destruct T as (O2 & _ & V). cbn [option_map fst snd]. destruct (op_width _ _ _ _ O2 He ltac:(discriminate)) as [-> _].
      now rewrite (span_crlf _ _ _ V He).
    - destruct Ht as (K & ((O1 & O2 & O3) & _) & _ & V). rewrite (key_crlf _ _ K) by lia. now rewrite (value_crlf _ _ _ V He).
    - destruct Ht as (K & ((O1 & O2 & O3) & _) & _ & V). rewrite (key_crlf _ _ K) by lia. now rewrite (value_crlf _ _ _ V He).
    - destruct Ht as (K & ((O1 & O2 & O3) & _) & _ & V). rewrite (key_crlf _ _ K) by lia. now rewrite (span_crlf _ _ _ V He).
  Qed.
End Text.
