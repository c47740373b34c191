(** AnalyzerBlocks: multiline fields and comments of analysed documents. *)
From Verif Require Import Base Types Scan Analyzer TokenStep ScanProofs ScanFacts StepProofs HeapFacts AnalyzerInv
  AnalyzerLoop StepChange SpecText AnalyzerText AnalyzerTiles Context SpecTree AnalyzerTree.

(** * Multiline fields *)

Lemma find_closing_first inp op key e stop x : e <= length inp ->
  find_closing op key e (skipn e inp) = Some (stop, x) ->
  first_closing inp op key e stop /\ closing_line op key (S stop) (skipn (S stop) inp) = Some x.
Proof.
  remember (skipn e inp) as r eqn:Hr. revert e Hr.
  induction r as [|c r IH]; intros e Hr He H; cbn [find_closing] in H; [discriminate|].
  assert (nth_error inp e = Some c) as Hn.
  { rewrite <- (firstn_skipn e inp), <- Hr, nth_error_app2; rewrite firstn_length_le by lia; [|lia].
    now rewrite Nat.sub_diag. }
  assert (r = skipn (S e) inp) as Hr'.
  { symmetry. eapply skipn_S_cons. symmetry. exact Hr. }
  assert (S e <= length inp) as He'.
  { assert (e < length inp) by (apply nth_error_Some; congruence). lia. }
  destruct (N.eqb_spec c nl) as [->|Hne].
  - destruct (closing_line op key (S e) r) as [y|] eqn:Ec.
    + injection H as <- <-. rewrite <- Hr'. split; [|assumption]. split; [lia|]. split; [split; [assumption|]|].
      * rewrite <- Hr'. congruence.
      * intros s' Hs'. lia.
    + destruct (IH (S e) Hr' He' H) as [(I1 & I2 & I3) I4]. split; [|assumption].
      split; [lia|]. split; [assumption|]. intros s' Hs' [C1 C2].
      destruct (Nat.eq_dec s' e) as [->|]; [rewrite <- Hr' in C2; congruence|].
      apply (I3 s'); [lia|]. split; assumption.
  - destruct (IH (S e) Hr' He' H) as [(I1 & I2 & I3) I4]. split; [|assumption].
    split; [lia|]. split; [assumption|]. intros s' Hs' [C1 C2].
    destruct (Nat.eq_dec s' e) as [->|]; [congruence|].
    apply (I3 s'); [lia|]. split; assumption.
Qed.

Lemma find_closing_none inp op key e s : e <= length inp ->
  find_closing op key e (skipn e inp) = None -> e <= s -> ~ closes inp op key s.
Proof.
  remember (skipn e inp) as r eqn:Hr. revert e Hr.
  induction r as [|c r IH]; intros e Hr He H Hs [C1 C2]; cbn [find_closing] in H.
  - assert (s < length inp) by (apply nth_error_Some; congruence).
    apply (f_equal (@length _)) in Hr. rewrite skipn_length in Hr. cbn in Hr. lia.
  - assert (nth_error inp e = Some c) as Hn.
    { rewrite <- (firstn_skipn e inp), <- Hr, nth_error_app2; rewrite firstn_length_le by lia; [|lia].
      now rewrite Nat.sub_diag. }
    assert (r = skipn (S e) inp) as Hr'.
    { symmetry. eapply skipn_S_cons. symmetry. exact Hr. }
    assert (S e <= length inp) as He'.
    { assert (e < length inp) by (apply nth_error_Some; congruence). lia. }
    destruct (Nat.eq_dec s e) as [->|Hne].
    + rewrite C1 in Hn. injection Hn as <-. rewrite N.eqb_refl, Hr' in H.
      destruct (closing_line op key (S e) (skipn (S e) inp)); congruence.
    + destruct (N.eqb c nl); [|apply (IH (S e) Hr' He' H ltac:(lia)); split; assumption].
      destruct (closing_line op key (S e) r); [discriminate|].
      apply (IH (S e) Hr' He' H ltac:(lia)). split; assumption.
Qed.

Lemma last_map {A B} (f : A -> B) l d : last (map f l) (f d) = f (last l d).
Proof. induction l as [|x [|y l] IH]; cbn in *; auto. Qed.
Lemma last_cons {A} (y : A) l x : last (y :: l) x = last l y.
Proof.
  revert y x. induction l as [|z l IH]; intros y x; [reflexivity|].
  change (last (y :: z :: l) x) with (last (z :: l) x). now rewrite (IH z x), (IH z y).
Qed.
Lemma tiles_ends inp i x l j : tiles inp i (x :: l) j -> fst x = i /\ S (snd (last l x)) = j.
Proof.
  revert i x. induction l as [|y l IH]; intros i x H; inversion H; subst.
  - match goal with H : tiles _ _ [] _ |- _ => inversion H; subst end. auto.
  - match goal with H : tiles _ _ (y :: l) _ |- _ => destruct (IH _ _ H) as [I1 I2] end. split; [reflexivity|].
    now rewrite last_cons.
Qed.

(** a multiline field with the end the grammar demands *)
Definition multiline_ok (inp : text) (n : node) : Prop :=
  n_type n = MULTILINE_FIELD_BEGIN ->
  exists op key stop lf e2,
    rget (n_ranges n) R_multiline_field_operator = Some op /\ rget (n_ranges n) R_key = Some key /\
    first_closing inp (at_range inp op) (at_range inp key) (snd (line_range (n_ranges n))) stop /\
    own_value inp n = between inp (snd (line_range (n_ranges n))) stop /\
    n_end n = Some lf /\ leaf_line lf = (S stop, e2) /\ ends_line inp e2.


Lemma multiline_ext inp x y : (n_type y = MULTILINE_FIELD_BEGIN -> n_type x = MULTILINE_FIELD_BEGIN) ->
  n_ranges y = n_ranges x -> n_lines y = n_lines x ->
  n_end y = n_end x -> multiline_ok inp x -> multiline_ok inp y.
Proof.
  unfold multiline_ok. intros Hx Hr Hl He H Hy. rewrite Hr, He.
  destruct (H (Hx Hy)) as (op & key & stop & lf & e2 & H1 & H2 & H3 & H4 & H5).
  exists op, key, stop, lf, e2. repeat (split; [assumption|]). split; [|assumption].
  rewrite <- H4. unfold own_value. now rewrite Hy, (Hx Hy), Hl.
Qed.

Lemma created_multiline inp st e t n p e' l' : created inp st e t n p e' l' -> line_end inp e ->
  tok_ok inp (a_index st) e t -> multiline_ok inp n.
Proof.
  intros Hcr Hle Htok. destruct Hcr; try (intro Ht; exfalso; revert Ht; cbn; try (destruct v); discriminate).
  intros _. pose proof Hle as Hle'. apply line_end_ends in Hle' as [Hlen Hen].
  destruct (closing_bounds _ _ _ _ _ _ _ _ Hlen H) as (B1 & B2 & B3 & B4 & B5).
  destruct (ml_part_spec _ _ _ _ _ _ _ H0 B1 B4 B5 Hle) as (-> & M2 & M3 & M4 & M5 & M6 & M7).
  destruct (find_closing_first _ _ _ _ _ _ Hlen H) as [F1 _].
  apply line_end_ends in B3 as [B3 B3'].
  exists op, k, stop, (end_leaf line3 (S stop) e2 o2 k2), e2. cbn. repeat (split; [first [reflexivity|exact F1]|]).
  split; [|repeat split; assumption]. unfold own_value. cbn. unfold between.
  destruct lines as [[|lf ls]|].
  - congruence.
  - destruct (Nat.eqb_spec stop e) as [Heq|Hne]; [apply M6 in Heq; discriminate|]. cbn [olist map] in M4.
    apply tiles_ends in M4 as [T1 T2]. rewrite last_map in T2. unfold leaf_line in T1, T2. rewrite T1.
    injection T2 as T2. now rewrite T2.
  - replace stop with e by (symmetry; now apply M6). now rewrite Nat.eqb_refl.
Qed.

(** a property of single nodes that every change preserves *)
Lemma reach_forall inp (P : node -> Prop) :
  (forall x y, core x = core y -> P x -> P y) ->
  (forall g x, registering g -> P x -> P (g x)) ->
  (forall lf x, P x -> P (cont_upd lf x)) ->
  (forall st t e n p e' l', reach inp st -> scan (a_index st) (skipn (a_index st) inp) = Some (t, e) ->
     created inp st e t n p e' l' -> line_end inp e -> tok_ok inp (a_index st) e t -> P n) ->
  forall st, reach inp st -> Forall P (tl (a_heap st)).
Proof.
  intros P1 P2 P3 P4. induction 1 as [|st st' Hr IH Hlt Hs]; [constructor|].
  destruct (reach_inv _ _ Hr) as [HI _].
  destruct (step_change inp st st' HI ltac:(lia) Hs) as (t & e & Hsc & Hch).
  destruct (scan_ok inp (a_index st) _ _ ltac:(lia) Hsc) as (Hie & Hle & Htok).
  assert (a_heap st <> []) as Hne.
  { pose proof (s_len _ (i_s _ _ _ _ _ HI)). destruct (a_heap st); [cbn in *; lia|discriminate]. }
  destruct Hch as [n p g e' Hcr Hp Hg Hcore Hm Hc Hix Hee|c lf Hic Hlce Hh Hm Hc Hix Hli|op v -> Hh Hm Hc Hix Hli|q -> Hh Hm Hc Hix Hli].
  - eapply Forall_core; [exact P1|apply map_core_tl; symmetry; exact Hcore|].
    apply app_upd_tl_Forall; auto. eapply P4; eauto.
  - rewrite Hh. unfold hupd. destruct c as [|c]; [now rewrite tl_upd0|]. rewrite tl_upd. apply Forall_upd; auto.
  - now rewrite Hh.
  - now rewrite Hh.
Qed.

Lemma cont_upd_eq lf x : n_ranges (cont_upd lf x) = n_ranges x /\ n_lines (cont_upd lf x) = n_lines x /\
  n_end (cont_upd lf x) = n_end x /\ n_comments (cont_upd lf x) = n_comments x /\
  (n_type (cont_upd lf x) = MULTILINE_FIELD_BEGIN -> n_type x = MULTILINE_FIELD_BEGIN).
Proof.
  unfold cont_upd. destruct (n_conts x); [repeat split; auto|].
  destruct (itype_eqb (n_type x) EMPTY_ELEMENT); repeat split; auto. cbn. discriminate.
Qed.

Theorem reach_multiline inp st : reach inp st -> Forall (multiline_ok inp) (tl (a_heap st)).
Proof.
  apply reach_forall.
  - intros x y Hc. unfold core, dyn in Hc. assert (stat x = stat y) as Hs by congruence. apply multiline_ext.
    + intro. congruence.
    + symmetry. now apply stat_ranges.
    + congruence.
    + congruence.
  - intros g x Hg. destruct (Hg x) as (G1 & G2 & G3 & G4 & G5). apply multiline_ext; auto. now apply stat_ranges.
  - intros lf x. destruct (cont_upd_eq lf x) as (C1 & C2 & C3 & _ & C5). now apply multiline_ext.
  - intros. eapply created_multiline; eauto.
Qed.

Theorem multiline_step inp st op k e : reach inp st -> a_index st < length inp ->
  scan (a_index st) (skipn (a_index st) inp) = Some (TMultiline op k, e) ->
  (forall s, first_closing inp (at_range inp op) (at_range inp k) e s ->
     exists st', step inp st = SOk st' /\ length (a_heap st') = S (length (a_heap st)) /\
       let n := hget (a_heap st') (length (a_heap st)) in
       n_type n = MULTILINE_FIELD_BEGIN /\ line_range (n_ranges n) = (a_index st, e) /\
       n_key n = Some (at_range inp k) /\
       own_value inp n = between inp e s) /\
  ((forall s, e <= s -> ~ closes inp (at_range inp op) (at_range inp k) s) ->
     exists st' lc, step inp st = SErr (PUnterminatedMultiline (length (a_heap st))) st' lc /\
       let n := hget (a_heap st') (length (a_heap st)) in
       n_line n = a_line st /\ line_range (n_ranges n) = (a_index st, e)).
Proof.
  intros Hr Hlt Hsc. destruct (reach_inv _ _ Hr) as [HI _].
  destruct (scan_ok inp (a_index st) _ _ ltac:(lia) Hsc) as (Hie & Hle & Htok).
  pose proof (proj1 (line_end_ends _ _) Hle) as [Hlen Hen].
  assert (a_lsec st < length (a_heap st)) as Hsec by apply HI.
  assert (a_heap st <> []) as Hne by (intro E; rewrite E in Hsec; cbn in Hsec; lia).
  change (at_range inp op) with (sub inp op). change (at_range inp k) with (sub inp k).
  destruct (find_closing (sub inp op) (sub inp k) e (skipn e inp)) as [[stop [[o2 k2] e2]]|] eqn:Ec.
  - destruct (find_closing_first _ _ _ _ _ _ Hlen Ec) as [(F1 & F2 & F3) _]. split.
    2:{ intro H. exfalso. now apply (H stop). }
    intros s (S1 & S2 & S3).
    assert (s = stop) as ->.
    { destruct (lt_eq_lt_dec s stop) as [[|]|]; auto; exfalso; [apply (F3 s)|apply (S3 stop)]; auto. }
    destruct (step inp st) as [st'| | |] eqn:Hs.
    + exists st'. split; [reflexivity|].
      destruct (step_change inp st st' HI ltac:(lia) Hs) as (t' & e' & Hsc' & Hch).
      rewrite Hsc in Hsc'. injection Hsc' as <- <-.
      inversion Hch as [n p g e' Hcr Hp Hg Hcore Hm Hc Hix Hee|c lf Hic Hlce Hh Hm Hc Hix Hli|op' v Ht Hh Hm Hc Hix Hli|q Ht Hh Hm Hc Hix Hli];
        try discriminate; [|inversion Hic].
      assert (length (a_heap st') = S (length (a_heap st))) as Hlen'.
      { apply map_core_stat, map_stat_length in Hcore. now rewrite Hcore, app_upd_length. }
      split; [assumption|]. pose proof (map_core_get _ _ (length (a_heap st)) Hcore) as G.
      rewrite app_upd_new in G by assumption. set (x := hget (a_heap st') (length (a_heap st))) in *.
      assert (stat x = stat n) as Gs by (unfold core in G; congruence).
      assert (n_type x = MULTILINE_FIELD_BEGIN) as Gt.
      { unfold core, dyn in G. inversion Hcr; subst. unfold ended, multiline_node in G. cbn in G. congruence. }
      assert (line_range (n_ranges x) = (a_index st, e)) as Gr.
      { rewrite (stat_ranges _ _ Gs). eapply created_range; eauto. }
      cbv zeta. repeat (split; [assumption|]). split.
      { rewrite (stat_key _ _ Gs). inversion Hcr; subst. reflexivity. }
      assert (multiline_ok inp x) as Hok.
      { eapply multiline_ext; [| | | |eapply created_multiline; eauto];
          [intro; unfold core, dyn in G; congruence|now apply stat_ranges|unfold core, dyn in G; congruence|unfold core, dyn in G; congruence]. }
      destruct (Hok Gt) as (op' & key' & stop' & lf & e3 & O1 & O2 & (O3 & O4 & O5) & O6 & _).
      rewrite Gr in *. cbn [snd] in *.
      assert (op' = op /\ key' = k) as [-> ->].
      { rewrite (stat_ranges _ _ Gs) in *. inversion Hcr; subst. cbn in O1, O2. split; congruence. }
      rewrite O6. f_equal. destruct (lt_eq_lt_dec stop' stop) as [[|]|]; auto; exfalso; [apply (F3 stop')|apply (O5 stop)]; auto.
    + exfalso. rewrite step_tstep in Hs by lia. unfold tstep in Hs. rewrite Hsc in Hs. cbn [tstep_tok] in Hs.
      rewrite Ec in Hs. destruct (if Nat.eqb stop e then _ else _) as [[[? ?] ?]|]; discriminate.
    + exfalso. pose proof (step_inv inp st HI ltac:(lia)) as Hok. now rewrite Hs in Hok.
    + exfalso. pose proof (step_inv inp st HI ltac:(lia)) as Hok. now rewrite Hs in Hok.
  - split.
    + intros s (S1 & S2 & S3). exfalso. apply (find_closing_none _ _ _ _ s Hlen Ec S1 S2).
    + intros _. rewrite step_tstep by lia. unfold tstep. rewrite Hsc. cbn [tstep_tok]. rewrite Ec.
      match goal with |- context [fail_at inp ?s ?i ?l ?mk] =>
        destruct (fail_at_err inp s i l mk) as (x & ls & lc & _ & E) end.
      rewrite E. do 2 eexists. split; [reflexivity|]. cbn [a_heap].
      match goal with |- context [add_element (_ ++ [?n]) ?p ?i] =>
        change (add_element (a_heap st ++ [n]) p i) with (app_upd (a_heap st) n p (fun n0 => set_elements (n_elements n0 ++ [i]) n0)) end.
      rewrite app_upd_new by assumption. split; reflexivity.
Qed.

(** * Comments *)

Definition pend_start (st : ast) : nat :=
  match a_comments st with Some (c :: _) => fst (leaf_line c) | _ => a_index st end.

Lemma block_start_eq n : block_start n =
  match n_comments n with Some (c :: _) => fst (leaf_line c) | _ => fst (line_range (n_ranges n)) end.
Proof. unfold block_start, node_lines. destruct (n_comments n) as [[|c l]|]; reflexivity. Qed.

Record CInv (inp : text) (st : ast) : Prop := {
  c_some : a_comments st <> Some [];
  c_type : Forall (fun c => l_type c = Some COMMENT) (olist (a_comments st));
  c_tiles : tiles inp (pend_start st) (map leaf_line (olist (a_comments st))) (a_index st);
  c_meta : Forall (fun m => S (snd (leaf_line m)) < pend_start st) (a_meta st);
  c_nodes : Forall (fun n => own_comments inp (a_meta st) n /\ block_start n < pend_start st) (tl (a_heap st))
}.

Lemma own_comments_ext inp meta x y : n_comments y = n_comments x -> n_ranges y = n_ranges x ->
  own_comments inp meta x -> own_comments inp meta y.
Proof.
  intros H1 H2. unfold own_comments. rewrite !block_start_eq, H1, H2. auto.
Qed.

Lemma tiles_ge inp i l j : tiles inp i l j -> Forall (fun x => i <= fst x /\ fst x <= snd x /\ snd x < j) l.
Proof.
  induction 1 as [|i e l j H1 H2 H3 H4 IH]; constructor.
  - cbn. apply tiles_ascending, ascending_le in H4. lia.
  - eapply Forall_impl; [|exact IH]. cbn. intros. lia.
Qed.

Lemma CInv_step inp st st' :
  AInv st -> CInv inp st -> a_index st < length inp -> step inp st = SOk st' -> CInv inp st'.
Proof.
  intros HI [C1 C2 C3 C4 C5] Hlt Hs.
  destruct (step_change inp st st' HI ltac:(lia) Hs) as (t & e & Hsc & Hch).
  destruct (scan_ok inp (a_index st) _ _ ltac:(lia) Hsc) as (Hie & Hle & Htok).
  assert (a_heap st <> []) as Hne.
  { pose proof (s_len _ (i_s _ _ _ _ _ HI)). destruct (a_heap st); [cbn in *; lia|discriminate]. }
  pose proof (proj1 (line_end_ends _ _) Hle) as [Hlen Hen].
  assert (pend_start st <= a_index st) as Hps by (apply tiles_ascending, ascending_le in C3; assumption).
  assert (Forall (fun m => pend_start st <= snd (leaf_line m) < a_index st) (olist (a_comments st))) as Hpend.
  { apply tiles_ge in C3. rewrite Forall_map in C3. eapply Forall_impl; [|exact C3]. cbn. intros; lia. }
  assert (Forall (fun m => S (snd (leaf_line m)) < S e) (flush (a_meta st) (a_comments st))) as Hfl.
  { rewrite flush_eq, Forall_app. split; (eapply Forall_impl; [|eassumption]); cbn; intros; lia. }
  assert (forall j n, S j > pend_start st -> own_comments inp (a_meta st) n /\ block_start n < pend_start st ->
          own_comments inp (flush (a_meta st) (a_comments st)) n /\ block_start n < S j) as Hkeep.
  { intros j n Hj [(O1 & O2 & O3 & O4) O5]. split; [|lia]. repeat (split; [assumption|]).
    intros m Hin. rewrite flush_eq in Hin. apply in_app_or in Hin as [Hin|Hin]; [auto|].
    rewrite Forall_forall in Hpend. apply Hpend in Hin. lia. }
  destruct Hch as [n p g e' Hcr Hp Hg Hcore Hm Hc Hix Hee|c lf Hic Hlce Hh Hm Hc Hix Hli|op v -> Hh Hm Hc Hix Hli|q -> Hh Hm Hc Hix Hli].
  - assert (pend_start st' = S e') as Hps' by (unfold pend_start; now rewrite Hc, Hix).
    constructor; rewrite ?Hps', ?Hc, ?Hm, ?Hix; cbn [olist map].
    + discriminate.
    + constructor.
    + constructor.
    + eapply Forall_impl; [|exact C4]. cbn. intros. lia.
    + eapply Forall_core; [|apply map_core_tl; symmetry; exact Hcore|].
      { intros x y Hxy [H1 H2]. unfold core in Hxy. assert (stat y = stat x) as Hst by congruence.
        pose proof (stat_comments _ _ Hst) as E1. pose proof (stat_ranges _ _ Hst) as E2.
        split; [eapply own_comments_ext; eauto|]. rewrite block_start_eq in *. now rewrite E1, E2. }
      apply app_upd_tl_Forall; auto.
      * eapply Forall_impl; [|exact C5]. cbn. intros x [H1 H2]. split; [assumption|lia].
      * assert (block_start n = pend_start st) as Hb.
        { rewrite block_start_eq, (created_comments _ _ _ _ _ _ _ _ Hcr), (created_range _ _ _ _ _ _ _ _ Hcr). reflexivity. }
        unfold own_comments. rewrite Hb, (created_comments _ _ _ _ _ _ _ _ Hcr), (created_range _ _ _ _ _ _ _ _ Hcr).
        split; [|lia]. split; [assumption|]. split; [exact C2|]. split; [exact C3|].
        intros m Hin. rewrite Forall_forall in C4. apply C4 in Hin. lia.
      * intros x [H1 H2]. destruct (Hg x) as (G1 & _).
        pose proof (stat_comments _ _ G1) as E1. pose proof (stat_ranges _ _ G1) as E2.
        split; [eapply own_comments_ext; eauto|]. rewrite block_start_eq in *. now rewrite E1, E2.
  - assert (pend_start st' = S e) as Hps' by (unfold pend_start; now rewrite Hc, Hix).
    constructor; rewrite ?Hps', ?Hc, ?Hm, ?Hix; cbn [olist map]; try discriminate; try constructor; try assumption.
    rewrite Hh. unfold hupd.
    assert (Forall (fun n => own_comments inp (flush (a_meta st) (a_comments st)) n /\ block_start n < S e) (tl (a_heap st))) as HF.
    { eapply Forall_impl; [|exact C5]. intros x Hx. apply Hkeep; [lia|assumption]. }
    destruct c as [|c]; [now rewrite tl_upd0|]. rewrite tl_upd. apply Forall_upd; [assumption|].
    intros x [H1 H2]. destruct (cont_upd_eq lf x) as (E2 & _ & _ & E1 & _).
    split; [eapply own_comments_ext; eauto|]. rewrite block_start_eq in *. now rewrite E1, E2.
  - assert (pend_start st' = pend_start st) as Hps'.
    { unfold pend_start. rewrite Hc. destruct (a_comments st) as [[|x l]|]; try reflexivity; congruence. }
    constructor; rewrite ?Hps', ?Hc, ?Hm, ?Hix, ?Hh; cbn [olist]; try assumption.
    + destruct (olist (a_comments st)); discriminate.
    + apply Forall_app. split; [assumption|]. repeat constructor.
    + rewrite map_app. eapply tiles_app; [exact C3|]. cbn. constructor; auto. constructor.
  - assert (pend_start st' = S e) as Hps' by (unfold pend_start; now rewrite Hc, Hix).
    constructor; rewrite ?Hps', ?Hc, ?Hm, ?Hix; cbn [olist map]; try discriminate; try constructor; try assumption.
    rewrite Hh. eapply Forall_impl; [|exact C5]. intros x Hx. apply Hkeep; [lia|assumption].
Qed.

Theorem reach_comments inp st : reach inp st -> CInv inp st.
Proof.
  induction 1 as [|st st' Hr IH Hlt Hs].
  - constructor; cbn; try constructor. discriminate.
  - apply CInv_step with st; auto. now apply reach_inv in Hr.
Qed.
(** also with the pending comments flushed, as at the end of the analysis *)
Theorem reach_comments_final inp st : reach inp st ->
  Forall (own_comments inp (flush (a_meta st) (a_comments st))) (tl (a_heap st)).
Proof.
  intro Hr. destruct (reach_comments _ _ Hr) as [C1 C2 C3 C4 C5].
  eapply Forall_impl; [|exact C5]. intros n [(O1 & O2 & O3 & O4) O5]. repeat (split; [assumption|]).
  intros m Hin. rewrite flush_eq in Hin. apply in_app_or in Hin as [Hin|Hin]; [auto|].
  apply tiles_ge in C3. rewrite Forall_map, Forall_forall in C3. apply C3 in Hin. lia.
Qed.
