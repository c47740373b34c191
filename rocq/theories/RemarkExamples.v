(** RemarkExamples: a document for PropRemarks. *)
From Coq Require Import Relations.
From Verif Require Import Base Types Messages Analyzer Resolver SpecTree SpecResolve SpecLinks ResolverIndex ResolverFinal Reporter Errors Context SpecInherit PropParseProofs CopiesProofs CopiesExamples
  InheritExamples SpecMerge MergeExamples SpecRemarks.

(** [sub] in [copy] is given sections by two copies, [plain] by one *)
Definition remark_doc : text := U "> of other
# other
a: 1
# base
> of base.sub
## sub
b: 2
> of base.plain
## plain
x: 3
# copy << base
## sub < other
c: 4
## plain".
Definition remark_heap : heap := Eval vm_compute in nodes_of remark_doc.

Lemma remark_is : nodes_of remark_doc = remark_heap. Proof. vm_compute. reflexivity. Qed.
Lemma remark_templates i j : template_is true remark_heap i j -> i = 8 /\ j = 3 \/ i = 9 /\ j = 1.
Proof. intros (k & H1 & H2 & _). apply all_copies_in in H1. apply cand_dec in H2. one_of H1; vm_compute in H2; destruct H2 as [<-|[]]; auto. Qed.
Lemma remark_copies : template_is true remark_heap 8 3 /\ template_is true remark_heap 9 1.
Proof.
  split.
  - apply (template_by _ _ _ (U "base")); [split; [apply Nat.ltb_lt; vm_compute; reflexivity|split; vm_compute; reflexivity]|vm_compute; reflexivity].
  - apply (template_by _ _ _ (U "other")); [split; [apply Nat.ltb_lt; vm_compute; reflexivity|split; vm_compute; reflexivity]|vm_compute; reflexivity].
Qed.
Lemma remark_founded : well_founded_copies remark_heap.
Proof.
  assert (forall s i, n_parent (hget remark_heap i) = Some s -> is_section (hget remark_heap i) -> s = 8 /\ (i = 9 \/ i = 11) \/ s = 3 /\ (i = 4 \/ i = 6) \/ s = 0) as Hp.
  { intros s i Hi Hs. assert (i < 12) as Hlt by (apply (in_heap remark_heap); congruence).
    do 12 (destruct i as [|i]; [vm_compute in Hi, Hs; try discriminate; injection Hi as <-; auto|]). lia. }
  assert (forall i j, merged remark_heap i j -> i = 8 /\ j = 3 \/ (i = 9 \/ i = 11) /\ (j = 4 \/ j = 6)) as Hm.
  { induction 1 as [i j Ht Hd|s t i j Hm IH Hi Hj Si Sj Hk].
    - apply remark_templates in Ht as [Ht|[-> ->]]; [now left|vm_compute in Hd; discriminate].
    - apply Hp in Hi; [|assumption]. apply Hp in Hj; [|assumption]. lia. }
  assert (forall i j, clos_trans nat (draws_on remark_heap) i j -> j < i) as Hd.
  { induction 1 as [i j [H|H]|]; [apply remark_templates in H; lia|apply Hm in H; lia|lia]. }
  intros i H. apply Hd in H. lia.
Qed.

Lemma remark_sub l : n_comments (hget remark_heap 1) = Some l -> remark remark_heap 9 (Some l).
Proof.
  intro Hl. apply (rk_given remark_heap 9 9 1 1 l); [vm_compute; reflexivity|split; [apply remark_copies|]|now apply rk_own|].
  - change (9 = 9 /\ 1 = 1). auto.
  - intros a' u' j' Hab [Ht _]. apply remark_templates in Ht as [[-> _]|[-> _]]; exfalso.
    + apply (enc_step remark_heap 9 8 0 eq_refl) in Hab as [E|Hab]; [discriminate E|]. now apply (enc_none remark_heap 9 0 eq_refl) in Hab.
    + apply (enc_step remark_heap 9 9 8 eq_refl) in Hab as [E|Hab]; [discriminate E|].
      apply (enc_step remark_heap 9 8 0 eq_refl) in Hab as [E|Hab]; [discriminate E|]. now apply (enc_none remark_heap 9 0 eq_refl) in Hab.
Qed.
Lemma remark_gives : gives remark_heap 8 3 9 4.
Proof.
  split; [apply remark_copies|]. change (pairs remark_heap 8 3 9 4). eapply pa_inner; [|constructor].
  split; [sole_by (@nil nat) [11]|split; [sole_by (@nil nat) [6]|vm_compute; reflexivity]].
Qed.
Lemma remark_sample : parses remark_doc = true /\ well_founded_copies (nodes_of remark_doc) /\
  gives (nodes_of remark_doc) 8 3 9 4 /\ gives (nodes_of remark_doc) 9 1 9 1 /\
  (forall l, n_comments (hget (nodes_of remark_doc) 1) = Some l -> remark (nodes_of remark_doc) 9 (Some l)) /\
  map (fun i => match n_comments (hget (parsed_of remark_doc) i) with Some l => map (fun x => l_text x) l | None => [] end) [1; 4; 8; 9; 11] =
    [[Some (U "of other")]; [Some (U "of base.sub")]; []; [Some (U "of other")]; [Some (U "of base.plain")]].
Proof.
  rewrite remark_is. split; [vm_compute; reflexivity|]. split; [exact remark_founded|]. split; [exact remark_gives|]. split.
  - split; [apply remark_copies|]. change (9 = 9 /\ 1 = 1). auto.
  - split; [exact remark_sub|vm_compute; reflexivity].
Qed.
