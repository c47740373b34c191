(** BrokenLoop: texts the line grammar fails on (C57). *)
From Verif Require Import Base Regex Grammar Scan ScanProofs Types Analyzer TokenStep StepProofs ScanFacts HeapFacts AnalyzerInv AnalyzerLoop SpecText SpecRun SpecSaid SpecBroken SaidRun SaidLoop
  Resolver Reporter Errors Context ParseOutcome SaidProofs.

Definition broken_err (r : ast + perr) (b : broken) : perr :=
  match r with
  | inl a => match b with BadLine => PInvalidLine no_leaf | NeverClosed => PUnterminatedMultiline (length (a_heap a)) end
  | inr e => e
  end.

Section Loop.
  Context (inp : text).
  Lemma loop_breaks i l b : breaks inp i l b -> forall st fuel, a_index st = i -> SpecRun.reach inp st -> length inp <= fuel + i ->
    exists e st' lc, loop inp fuel st = SErr e st' lc /\ skin_err e = broken_err (arun (skin_ast inp st) l) b.
  Proof.
    induction 1 as [i Hi Hs|i op k e Hi Hs Hf|i t e x l b Hi Hs Hm Hl IH|i op k e stop o2 k2 e2 l b Hi Hs Hf Hl IH]; intros st fuel <- Hr Hfu; (destruct fuel as [|f]; [lia|]);
      cbn [loop arun]; apply Nat.ltb_lt in Hi as Hi'; rewrite Hi'; destruct (reach_inv inp st Hr) as [HI _].
    - rewrite step_tstep by lia. unfold tstep. rewrite Hs. destruct (fail_at_err inp st (a_index st) (a_line st) PInvalidLine) as (? & ? & ? & _ & ->). do 3 eexists. split; reflexivity.
    - rewrite step_tstep by lia. unfold tstep. rewrite Hs. cbn [tstep_tok]. change (sub inp op) with (at_range inp op). change (sub inp k) with (at_range inp k). rewrite Hf.
      match goal with |- context [fail_at inp ?s ?n ?m ?mk] => destruct (fail_at_err inp s n m mk) as (? & ? & ? & _ & ->) end. do 3 eexists. split; [reflexivity|].
      cbn [skin_err broken_err skin_ast a_heap]. now rewrite skins_length.
    - assert (step inp st = tstep_tok inp st t e) as Es by (rewrite step_tstep by lia; unfold tstep; now rewrite Hs).
      pose proof (step_as inp st t e x HI ltac:(lia) Hs Hm) as Ho. pose proof (tstep_tok_inv inp st t e HI ltac:(lia) Hs) as Hinv. rewrite Es.
      destruct (tstep_tok inp st t e) as [st'|er st' lc| |] eqn:Et; destruct (astep (skin_ast inp st) x) as [a|er']; cbn [outcome_as] in *; try contradiction; [|subst; eauto 6].
      subst a. destruct Hinv as (_ & e' & He & Hx & _). assert (e' = e) as -> by (destruct t; try exact He; discriminate).
      pose proof (scan_ok inp _ _ _ (Nat.lt_le_incl _ _ Hi) Hs) as (Hie & _). apply IH; [assumption| |lia]. eapply reach_step; [exact Hr|assumption|congruence].
    - destruct (multiline_as inp st op k e stop o2 k2 e2 HI ltac:(lia) Hs Hf) as (st' & Et & Hx & Ea).
      assert (step inp st = SOk st') as Es by (rewrite step_tstep by lia; unfold tstep; now rewrite Hs). rewrite Es, Ea.
      pose proof (tstep_tok_inv inp st _ e HI ltac:(lia) Hs) as Hinv. rewrite Et in Hinv. destruct Hinv as (_ & e' & _ & Hx' & Hle).
      pose proof (scan_ok inp _ _ _ (Nat.lt_le_incl _ _ Hi) Hs) as (Hie & _). apply IH; [assumption| |lia]. eapply reach_step; eassumption.
  Qed.
  Lemma analyze_breaks l b : breaks inp 0 l b -> exists e st lc, analyze inp = AErr e st lc /\ skin_err e = broken_err (arun init_ast l) b.
  Proof.
    intro Hl. unfold analyze. destruct inp as [|c d] eqn:Ei.
    - inversion Hl; subst; cbn in *; lia.
    - rewrite <- Ei in *. destruct (loop_breaks 0 l b Hl init_ast (length inp) eq_refl ltac:(constructor) ltac:(lia)) as (e & st & lc & El & Ee). rewrite El. eauto.
  Qed.

  (** every text *)
  Lemma says_or_breaks n : forall i, length inp <= n + i -> (exists l, says inp i l) \/ (exists l b, breaks inp i l b).
  Proof.
    induction n as [|n IH]; intros i Hn; (destruct (Nat.le_gt_cases (length inp) i) as [Hi|Hi]; [left; exists []; now constructor|]); [lia|].
    destruct (scan i (skipn i inp)) as [[t e]|] eqn:Hs; [|right; exists [], BadLine; now constructor].
    pose proof (scan_ok inp _ _ _ (Nat.lt_le_incl _ _ Hi) Hs) as (Hie & Hle & _).
    destruct (meaning inp i t) as [x|] eqn:Hm.
    - destruct (IH (S e) ltac:(lia)) as [(l & Hl)|(l & b & Hl)]; [left; exists (x :: l); eapply sy_line; eassumption|right; exists (x :: l), b; eapply bk_after; eassumption].
    - destruct t as [| | | | |op k| | | |]; try discriminate. destruct (find_closing (at_range inp op) (at_range inp k) e (skipn e inp)) as [[stop [[o2 k2] e2]]|] eqn:Hf.
      + destruct (closing_bounds _ _ _ _ _ _ _ _ (proj1 Hle) Hf) as (B1 & B2 & B3 & B4 & B5).
        destruct (IH (S e2) ltac:(lia)) as [(l & Hl)|(l & b & Hl)]; [left; eexists; eapply sy_multiline; eassumption|right; do 2 eexists; eapply bk_multiline; eassumption].
      + right. exists [], NeverClosed. eapply bk_open; eassumption.
  Qed.
  Lemma says_not_breaks i l : says inp i l -> forall l' b, ~ breaks inp i l' b.
  Proof.
    induction 1 as [i Hi|i t e x l Hi Hs Hm Hl IH|i op k e stop o2 k2 e2 l Hi Hs Hf Hl IH]; intros l' b B.
    - inversion B; subst; lia.
    - inversion B as [? ? Hs2|? ? ? ? ? Hs2 ?|? ? ? ? ? ? ? Hs2 Hm2 Hl2|? ? ? ? ? ? ? ? ? ? ? Hs2 Hf2 Hl2]; subst; rewrite Hs in Hs2; try discriminate.
      + injection Hs2 as -> ->. discriminate.
      + injection Hs2 as <- <-. now apply IH in Hl2.
      + injection Hs2 as -> ->. discriminate.
    - inversion B as [? ? Hs2|? ? ? ? ? Hs2 Hf2|? ? ? ? ? ? ? Hs2 Hm2 Hl2|? ? ? ? ? ? ? ? ? ? ? Hs2 Hf2 Hl2]; subst; rewrite Hs in Hs2; try discriminate.
      + injection Hs2 as <- <- <-. congruence.
      + injection Hs2 as <- <-. discriminate.
      + injection Hs2 as <- <- <-. rewrite Hf in Hf2. injection Hf2 as <- <- <- <-. now apply IH in Hl2.
  Qed.
  Lemma breaks_fun i l b : breaks inp i l b -> forall l' b', breaks inp i l' b' -> l' = l /\ b' = b.
  Proof.
    induction 1 as [i Hi Hs|i op k e Hi Hs Hf|i t e x l b Hi Hs Hm Hl IH|i op k e stop o2 k2 e2 l b Hi Hs Hf Hl IH]; intros l' b' B;
      inversion B as [? ? Hs2|? ? ? ? ? Hs2 Hf2|? ? ? ? ? ? ? Hs2 Hm2 Hl2|? ? ? ? ? ? ? ? ? ? ? Hs2 Hf2 Hl2]; subst; rewrite Hs in Hs2; try discriminate; auto.
    - injection Hs2 as <- <-. discriminate.
    - injection Hs2 as <- <- <-. congruence.
    - injection Hs2 as -> ->. discriminate.
    - injection Hs2 as <- <-. rewrite Hm in Hm2. injection Hm2 as <-. destruct (IH _ _ Hl2) as [-> ->]. auto.
    - injection Hs2 as -> ->. discriminate.
    - injection Hs2 as <- <- <-. congruence.
    - injection Hs2 as <- <-. discriminate.
    - injection Hs2 as <- <- <-. rewrite Hf in Hf2. injection Hf2 as <- <- <- <-. destruct (IH _ _ Hl2) as [-> ->]. auto.
  Qed.
End Loop.

Theorem every_text d : (exists L, tells d L /\ (forall L', tells d L' -> L' = L) /\ forall L' b, ~ tells_until d L' b) \/
  (exists L b, tells_until d L b /\ (forall L' b', tells_until d L' b' -> L' = L /\ b' = b) /\ forall L', ~ tells d L').
Proof.
  destruct (says_or_breaks d (length d) 0 ltac:(lia)) as [(l & Hl)|(l & b & Hl)]; [left; exists (noted [] l)|right; exists (noted [] l), b].
  - split; [now exists l|]. split.
    + intros L' (l' & Hl' & ->). now rewrite (says_fun d 0 l Hl l' Hl').
    + intros L' b (l' & Hl' & _). exact (says_not_breaks d 0 l Hl l' b Hl').
  - split; [now exists l|]. split.
    + intros L' b' (l' & Hl' & ->). destruct (breaks_fun d 0 l b Hl l' b' Hl') as [-> ->]. auto.
    + intros L' (l' & Hl' & _). exact (says_not_breaks d 0 l' Hl' l b Hl).
Qed.

Lemma broken_noted l1 l2 b : noted [] l1 = noted [] l2 -> broken_err (arun init_ast l1) b = broken_err (arun init_ast l2) b.
Proof.
  intro E. pose proof (arun_noted l1 init_ast []) as F1. pose proof (arun_noted l2 init_ast []) as F2. change (with_c (pc []) init_ast) with init_ast in F1, F2. rewrite E, <- F2 in F1.
  destruct (arun init_ast l1), (arun init_ast l2); cbn [fin] in F1; try discriminate; injection F1 as F1; cbn [broken_err]; [|assumption]. now rewrite F1.
Qed.
Theorem broken_faults d1 d2 L b : tells_until d1 L b -> tells_until d2 L b -> exists p h meta lc, fault d1 p h meta lc /\
  exists q h' meta' lc', fault d2 q h' meta' lc' /\ same_complaint p q.
Proof.
  intros (l1 & H1 & E1) (l2 & H2 & E2). destruct (analyze_breaks d1 l1 b H1) as (p & s1 & c1 & A1 & P1). destruct (analyze_breaks d2 l2 b H2) as (q & s2 & c2 & A2 & P2).
  do 4 eexists. split; [apply fault_line; exact A1|]. do 4 eexists. split; [apply fault_line; exact A2|]. apply same_complaint_skin. rewrite P1, P2. apply broken_noted. congruence.
Qed.

(** Two texts that break off at the same place. *)
Definition open_tight : text := U "a: 1
-- note
text".
Definition open_loose : text := U " ``a`` :  1

  ---- note
  other text
-- note
".
Lemma open_tell : exists L, L <> [] /\ tells_until open_tight L NeverClosed /\ tells_until open_loose L NeverClosed.
Proof.
  exists [([], SaysField (U "a") (Some (U "1")))]. split; [discriminate|]. split.
  - exists [SaysField (U "a") (Some (U "1"))]. split; [|reflexivity].
    eapply bk_after; [vm_compute; lia|vm_compute; reflexivity|vm_compute; reflexivity|]. eapply bk_open; [vm_compute; lia|vm_compute; reflexivity|vm_compute; reflexivity].
  - exists [SaysField (U "a") (Some (U "1")); SaysEmpty]. split; [|reflexivity].
    eapply bk_after; [vm_compute; lia|vm_compute; reflexivity|vm_compute; reflexivity|].
    eapply bk_after; [vm_compute; lia|vm_compute; reflexivity|vm_compute; reflexivity|].
    eapply bk_open; [vm_compute; lia|vm_compute; reflexivity|vm_compute; reflexivity].
Qed.
