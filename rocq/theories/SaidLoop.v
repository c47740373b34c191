(** SaidLoop: whole documents that say the same (lemmas for C57). *)
From Verif Require Import Base Regex Grammar Scan ScanProofs Types Analyzer TokenStep StepProofs ScanFacts HeapFacts AnalyzerInv AnalyzerLoop SpecText SpecRun SpecSaid SaidRun.

Fixpoint arun (st : ast) (l : list said) : ast + perr :=
  match l with [] => inl st | x :: l' => match astep st x with inl st' => arun st' l' | inr e => inr e end end.

Section Loop.
  Context (inp : text).
  Lemma loop_says i l : says inp i l -> forall st fuel, a_index st = i -> reach inp st -> length inp <= fuel + i -> outcome_as inp (loop inp fuel st) (arun (skin_ast inp st) l).
  Proof.
    induction 1 as [i Hi|i t e x l Hi Hs Hm Hl IH|i op k e stop o2 k2 e2 l Hi Hs Hf Hl IH]; intros st fuel <- Hr Hfu.
    - cbn [arun]. replace (loop inp fuel st) with (SOk st); [reflexivity|]. destruct fuel; cbn [loop]; now apply Nat.ltb_ge in Hi as ->.
    - destruct fuel as [|f]; [lia|]. cbn [loop arun]. apply Nat.ltb_lt in Hi as Hi'. rewrite Hi'. destruct (reach_inv inp st Hr) as [HI _].
      assert (step inp st = tstep_tok inp st t e) as Es by (rewrite step_tstep by lia; unfold tstep; now rewrite Hs).
      pose proof (step_as inp st t e x HI ltac:(lia) Hs Hm) as Ho. pose proof (tstep_tok_inv inp st t e HI ltac:(lia) Hs) as Hinv. rewrite Es.
      destruct (tstep_tok inp st t e) as [st'|er st' lc| |] eqn:Et; destruct (astep (skin_ast inp st) x) as [a|er']; cbn [outcome_as] in *; try contradiction; [|assumption].
      subst a. destruct Hinv as (_ & e' & He & Hx & _). assert (e' = e) as -> by (destruct t; try exact He; discriminate).
      pose proof (scan_ok inp _ _ _ (Nat.lt_le_incl _ _ Hi) Hs) as (Hie & _). apply IH; [assumption| |lia]. eapply reach_step; [exact Hr|assumption|congruence].
    - destruct fuel as [|f]; [lia|]. cbn [loop arun]. apply Nat.ltb_lt in Hi as Hi'. rewrite Hi'. destruct (reach_inv inp st Hr) as [HI _].
      destruct (multiline_as inp st op k e stop o2 k2 e2 HI ltac:(lia) Hs Hf) as (st' & Et & Hx & Ea).
      assert (step inp st = SOk st') as Es by (rewrite step_tstep by lia; unfold tstep; now rewrite Hs). rewrite Es, Ea.
      pose proof (tstep_tok_inv inp st _ e HI ltac:(lia) Hs) as Hinv. rewrite Et in Hinv. destruct Hinv as (_ & e' & _ & Hx' & Hle).
      pose proof (scan_ok inp _ _ _ (Nat.lt_le_incl _ _ Hi) Hs) as (Hie & _). apply IH; [assumption| |lia]. eapply reach_step; eassumption.
  Qed.

  (** what an accepted text says *)
  Lemma loop_said fuel : forall st st', reach inp st -> length inp <= fuel + a_index st -> loop inp fuel st = SOk st' -> exists l, says inp (a_index st) l.
  Proof.
    induction fuel as [|f IH]; intros st st' Hr Hf; cbn [loop]; destruct (Nat.ltb_spec (a_index st) (length inp)) as [Hlt|Hge]; try discriminate.
    - exists []. now constructor.
    - destruct (reach_inv inp st Hr) as [HI _]. rewrite step_tstep by lia. unfold tstep.
      destruct (scan (a_index st) (skipn (a_index st) inp)) as [[t e]|] eqn:Hs; [|destruct (fail_at_err inp st (a_index st) (a_line st) PInvalidLine) as (? & ? & ? & _ & ->); discriminate].
      pose proof (tstep_tok_inv inp st t e HI ltac:(lia) Hs) as Hinv.
      destruct (tstep_tok inp st t e) as [st1|er st1 lc| |] eqn:Et; try discriminate. destruct Hinv as (_ & e' & He & Hx & Hle). intro Hloop.
      assert (reach inp st1) as Hr1 by (eapply reach_step; [exact Hr|assumption|rewrite step_tstep by lia; unfold tstep; now rewrite Hs]).
      destruct (IH st1 st' Hr1) as (l & Hl); [destruct (scan_ok inp _ _ _ (Nat.lt_le_incl _ _ Hlt) Hs) as (Hie & _); lia|assumption|]. rewrite Hx in Hl.
      destruct (meaning inp (a_index st) t) as [x|] eqn:Em.
      + exists (x :: l). eapply sy_line; try eassumption. replace e with e'; [assumption|]. destruct t; try exact He; discriminate.
      + destruct t; try discriminate. destruct He as (stop & o2 & k2 & Hf'). eexists. eapply sy_multiline; eassumption.
    - exists []. now constructor.
  Qed.
  Lemma says_fun i l : says inp i l -> forall l', says inp i l' -> l = l'.
  Proof.
    induction 1 as [i Hi|i t e x l Hi Hs Hm Hl IH|i op k e stop o2 k2 e2 l Hi Hs Hf Hl IH]; intros l' H'.
    - inversion H'; subst; [reflexivity|lia|lia].
    - inversion H' as [? Hi2|? t2 e2 x2 l2 Hi2 Hs2 Hm2 Hl2|? op2 k2 e2 stop2 o2 k3 e3 l2 Hi2 Hs2 Hf2 Hl2]; subst; [lia| |rewrite Hs in Hs2; injection Hs2 as -> ->; discriminate].
      rewrite Hs in Hs2. injection Hs2 as <- <-. rewrite Hm in Hm2. injection Hm2 as <-. f_equal. auto.
    - inversion H' as [? Hi2|? t3 e3 x3 l3 Hi2 Hs2 Hm2 Hl2|? op3 k3 e3 stop3 o3 k4 e4 l3 Hi2 Hs2 Hf2 Hl2]; subst; [lia|rewrite Hs in Hs2; injection Hs2 as <- <-; discriminate|].
      rewrite Hs in Hs2. injection Hs2 as <- <- <-. rewrite Hf in Hf2. injection Hf2 as <- <- <- <-. f_equal. auto.
  Qed.

  (** the outcome of the analysis, without positions *)
  Definition analysed_as (x : ast + perr) : Prop :=
    match analyze inp, x with
    | AOk st _, inl a => a_heap a = skins inp (a_heap st) /\ a_cs a = a_cs st /\ a_cn a = a_cn st
    | AErr e _ _, inr a => a = skin_err e
    | _, _ => False
    end.
  Lemma analyze_says l : says inp 0 l -> analysed_as (arun init_ast l).
  Proof.
    intro Hl. unfold analysed_as, analyze. destruct inp as [|c d] eqn:Ei.
    - inversion Hl; subst; cbn in *; try lia. auto.
    - rewrite <- Ei in *. pose proof (loop_says 0 l Hl init_ast (length inp) eq_refl ltac:(constructor) ltac:(lia)) as H.
      change (skin_ast inp init_ast) with init_ast in H. destruct (loop inp (length inp) init_ast) as [st|e st lc| |], (arun init_ast l) as [a|a]; cbn [outcome_as] in H; try contradiction; [|assumption].
      subst a. cbn. auto.
  Qed.
  Lemma analyze_said st lc : analyze inp = AOk st lc -> exists l, says inp 0 l.
  Proof.
    unfold analyze. destruct inp as [|c d] eqn:Ei; [intros _; exists []; constructor; cbn; lia|]. rewrite <- Ei. intro H.
    destruct (loop inp (length inp) init_ast) as [st1| | |] eqn:El; try discriminate. apply (loop_said (length inp) init_ast st1); [constructor|cbn; lia|assumption].
  Qed.
End Loop.

(** * Comments and blank lines *)

Definition with_c (o : option (list leaf)) (st : ast) : ast := MkA (a_heap st) [] 0 0 (a_depth st) o (a_lce st) (a_lnse st) (a_lsec st) (a_cs st) (a_cn st).
Definition pc (p : list (nat * option text)) : option (list leaf) :=
  match p with [] => None | _ => Some (plain p) end.
Fixpoint nrun (st : ast) (l : list (list (nat * option text) * said)) : ast + perr :=
  match l with [] => inl st | (p, x) :: l' => match astep (with_c (pc p) st) x with inl st' => nrun st' l' | inr e => inr e end end.
Definition fin (r : ast + perr) : (heap * list (text * list nat) * list (text * list nat)) + perr :=
  match r with inl a => inl (a_heap a, a_cs a, a_cn a) | inr e => inr e end.

Lemma astep_clean st x st' : match x with SaysComment _ _ => False | _ => True end -> astep st x = inl st' -> st' = with_c None st'.
Proof.
  intros Hx. destruct x as [|c t|s v|v|k v|k v|k v|k t|d k t]; try contradiction; cbn [astep]; cbv zeta.
  - intros [= <-]. reflexivity.
  - destruct (a_lce st); [|discriminate]. intros [= <-]. reflexivity.
  - destruct (a_lnse st); [|discriminate]. destruct (takes_items _); [|discriminate]. intros [= <-]. reflexivity.
  - destruct (a_lnse st); [|discriminate]. destruct (takes_entries _); [|discriminate]. intros [= <-]. reflexivity.
  - intros [= <-]. reflexivity.
  - intros [= <-]. reflexivity.
  - intros [= <-]. reflexivity.
  - destruct (section_parent st d) as [[p|]|]; try discriminate. destruct t as [[b t]|]; [|intros [= <-]; reflexivity].
    destruct (mark_deep _ _ _); [|discriminate]. intros [= <-]. reflexivity.
Qed.
Lemma pc_level p : option_map lev (pc (level p)) = option_map lev (pc p).
Proof.
  unfold pc. destruct p as [|a p]; [reflexivity|]. destruct (level (a :: p)) as [|b q] eqn:E; [discriminate|]. cbn [option_map]. now rewrite <- E, !lev_plain, level_level.
Qed.
Lemma astep_level st x p : match x with SaysComment _ _ => False | _ => True end -> astep (with_c (pc (level p)) st) x = astep (with_c (pc p) st) x.
Proof.
  intro Hx. destruct x as [|c t|s v|v|k v|k v|k v|k t|d k t]; try contradiction; cbn [astep with_c a_heap a_depth a_comments a_lce a_lnse a_lsec a_cs a_cn]; cbv zeta; rewrite ?pc_level; reflexivity.
Qed.
Lemma arun_noted l : forall st p, fin (arun (with_c (pc p) st) l) = fin (nrun st (noted p l)).
Proof.
  induction l as [|x l IH]; intros st p; [reflexivity|].
  assert (forall st', st' = with_c None st' -> fin (arun st' l) = fin (nrun st' (noted [] l))) as K by (intros st' E; rewrite E at 1; apply (IH st' [])).
  destruct x as [|c t|s v|v|k v|k v|k v|k t|d k t]; cbn [arun noted nrun].
  1: exact (IH st []).
  1: { rewrite <- IH. f_equal. assert (astep (with_c (pc p) st) (SaysComment c t) = inl (with_c (pc (p ++ [(c, t)])) st)) as ->; [|reflexivity].
       cbn [astep]. unfold with_c. cbn [a_heap a_depth a_comments a_lce a_lnse a_lsec a_cs a_cn]. do 2 f_equal. unfold pc.
       destruct p as [|a p]; [reflexivity|]. cbn [app]. f_equal. unfold plain. now rewrite app_comm_cons, map_app. }
  1: change (astep (with_c (pc p) st) (SaysContinuation s v)) with (astep (with_c (pc []) st) (SaysContinuation s v)).
  all: rewrite ?astep_level by exact I.
  all: match goal with |- fin (match ?a with _ => _ end) = _ => destruct a as [st'|e] eqn:E; [|reflexivity] end; apply K; eapply astep_clean; [|exact E]; exact I.
Qed.
