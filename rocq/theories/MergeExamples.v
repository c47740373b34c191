(** MergeExamples: C25 for parsed documents, and concrete documents for PropMerge. *)
From Coq Require Import Relations.
From Verif Require Import Base Types Messages Resolver Reporter Errors Context Elements SpecTree SpecResolve SpecRead SpecApi SpecQuery SpecLinks SpecMerge ResolverIndex ResolverFinal Reads ReadLinks
  ApiDoc ApiInv ApiState ApiOps SessionInv QueryProofs Session SessionRun CopiesProofs PropQueryProofs ParseOutcome PropParseProofs PropCopiesProofs ResolverMerge MergeProofs CopiesExamples SpecMerge.

Section Parsed.
  Context {inp : text} {loc : locale} {rk : reporter_kind} {src : option text} {c : ctx} (HP : parse_context inp loc rk src = Ok c).
  Let r := c_heap c.

  Lemma container_merged e L : is_container (hget r e) -> e < length r -> merged_list r e L -> element_list r e L.
  Proof.
    intros Hc He HL. destruct (parsed_copies HP) as (h0 & cs & cn & HA & Hr & HR). fold r in Hr, HR. destruct Hc as [Hc|Hc].
    - assert (~ is_section (hget r e)) as Hn by (unfold is_section; congruence).
      assert (e = 0) as ->.
      { destruct e as [|e]; [reflexivity|]. destruct (doc_parent _ (doc_of_parse inp loc rk src c HP) (S e)) as (p & _ & _ & D & _); [fold r; lia|]. contradiction. }
      destruct (doc_root _ (doc_of_parse inp loc rk src c HP)) as (_ & _ & Hp).
      inversion HL as [e E|e t l l' (a & u & (Hg & _) & _)]; subst; [now apply li_own|]. exfalso. now apply (root_own h0 cs cn HA r HR 0 Hn a u t).
    - rewrite (res_len h0 r HR) in He. eapply merged_elements; eassumption.
  Qed.

  Lemma elements_merged s o e key L : reach c s -> names s o CSection e -> merged_list r e L ->
    exists ys, snd (section_elements o key s) = Ok ys /\
      Forall2 (fun y x => is_obj (fst (section_elements o key s)) y CSectionElement x (Some o)) ys (filter (keyed r key) L).
  Proof.
    intros Hs HN HL. pose proof (iv_obj _ _ (inv_reach c (doc_of_parse inp loc rk src c HP) s Hs) o (proj1 HN)) as [He Hc _ _ _ _ _].
    pose proof HN as (_ & N1 & N2). rewrite N1, N2 in *. fold r in He, Hc. apply or_comm in Hc.
    destruct (query_elements HP s o e key L Hs HN (container_merged e L Hc He HL)) as (ys & E & F). exists ys. auto.
  Qed.
  Lemma one_merged_list e L L' : merged_list r e L -> merged_list r e L' -> L = L'.
  Proof. destruct (parsed_copies HP) as (h0 & cs & cn & HA & Hr & HR). intro H. now apply (merged_fun h0 cs cn HA r HR). Qed.
  Lemma merged_lists : well_founded_copies r -> forall e, e < length r -> exists L, merged_list r e L.
  Proof.
    destruct (parsed_copies HP) as (h0 & cs & cn & HA & Hr & HR). fold r in Hr, HR. intros Hw e He.
    destruct (itype_eqb (n_type (hget r e)) SECTION) eqn:E.
    - apply itype_eqb_eq in E. rewrite (res_len h0 r HR) in He. eapply merged_total; eassumption.
    - eexists. apply ml_own. apply (root_own h0 cs cn HA r HR). unfold is_section. intro K. rewrite K in E. discriminate.
  Qed.
  Lemma own_or_heirs e : is_section (hget r e) -> on_its_own r e \/ exists a u t, heir r a u e t.
  Proof.
    destruct (parsed_copies HP) as (h0 & cs & cn & HA & Hr & HR). intro Hs. eapply own_or_heir; try eassumption.
    destruct (Nat.lt_ge_cases e (length h0)) as [|L]; [assumption|]. rewrite <- (res_len h0 _ HR) in L. unfold is_section, hget in Hs. rewrite nth_overflow in Hs by assumption. discriminate.
  Qed.
  Lemma one_heir e a u t a' u' t' : heir r a u e t -> heir r a' u' e t' -> t = t'.
  Proof. destruct (parsed_copies HP) as (h0 & cs & cn & HA & Hr & HR). eapply heir_fun; eassumption. Qed.
  Lemma heirs e : is_section (hget r e) -> (on_its_own r e \/ exists a u t, heir r a u e t) /\
    forall a u t a' u' t', heir r a u e t -> heir r a' u' e t' -> t = t'.
  Proof. intro Hs. split; [now apply own_or_heirs|]. intros a u t a' u' t'. apply one_heir. Qed.
  (** what gives [i] elements is [i] or around it *)
  Lemma giver a u i j : gives r a u i j -> (i = a \/ encloses r a i) /\ (j = u \/ encloses r u j) /\ template_is true r a u.
  Proof.
    destruct (parsed_copies HP) as (h0 & cs & cn & HA & Hr & HR). fold r in Hr, HR. intro Hg. pose proof Hg as [Ht _]. apply (gives_res h0 r HR) in Hg.
    destruct (gives_in h0 cs cn HA a u i j Hg) as (_ & _ & H1 & H2 & _). split; [|split; [|assumption]].
    - destruct H1 as [->|H1]; [now left|right]. now apply (encloses_res h0 r HR).
    - destruct H2 as [->|H2]; [now left|right]. now apply (encloses_res h0 r HR).
  Qed.
End Parsed.

Lemma enc_step h a i p : n_parent (hget h i) = Some p -> encloses h a i -> a = p \/ encloses h a p.
Proof. intros Hp H. inversion H as [? ? E|? ? ? E]; subst; rewrite Hp in E; injection E as <-; auto. Qed.
Lemma enc_none h a i : n_parent (hget h i) = None -> ~ encloses h a i.
Proof. intros Hp H. inversion H as [? ? E|? ? ? E]; subst; rewrite Hp in E; discriminate. Qed.

(** * A subsection that copies, in a deep copy *)
Definition deep_doc : text := U "# base
a: 1
## sub
b: 2
### inner
c: 3
# other
d: 4
# copy << base
## sub < other
e: 5
### inner".
Definition deep_heap : heap := Eval vm_compute in c_heap (ctx_of deep_doc).
Lemma deep_parsed : parse_context deep_doc en TextReporter None = Ok (ctx_of deep_doc). Proof. vm_compute. reflexivity. Qed.
Lemma deep_is : c_heap (ctx_of deep_doc) = deep_heap. Proof. vm_compute. reflexivity. Qed.

Ltac sole_by x1 x2 := exists x1, x2; split; [vm_compute; reflexivity|]; split; [vm_compute; reflexivity|]; let x := fresh in let Hx := fresh in let K := fresh in
  intros x Hx K; vm_compute in Hx; repeat (destruct Hx as [<-|Hx]; [vm_compute in K; discriminate K|]); destruct Hx.

Lemma deep_templates i j : template_is true deep_heap i j -> i = 9 /\ j = 1 \/ i = 10 /\ j = 7.
Proof. intros (k & H1 & H2 & _). apply all_copies_in in H1. apply cand_dec in H2. one_of H1; vm_compute in H2; destruct H2 as [<-|[]]; auto. Qed.
Lemma deep_copy_9 : template_is true deep_heap 9 1.
Proof. apply (template_cands true deep_heap 9 (U "base") 1); [|vm_compute; reflexivity]. split; [apply Nat.ltb_lt; vm_compute; reflexivity|split; vm_compute; reflexivity]. Qed.
Lemma deep_own i : i = 3 \/ i = 5 -> on_its_own deep_heap i.
Proof.
  intros Hi a u j Hg. rewrite <- deep_is in Hg. destruct (giver deep_parsed a u i j Hg) as (H1 & _ & Ht). rewrite deep_is in *.
  apply deep_templates in Ht. assert (a = 3 \/ a = 5 \/ a = 1 \/ a = 0) as Ha; [|destruct Ha as [->|[->|[->| ->]]], Ht as [[E _]|[E _]]; discriminate E].
  destruct Hi as [-> | ->].
  - destruct H1 as [<-|H1]; [now left|]. apply (enc_step deep_heap a 3 1 eq_refl) in H1 as [->|H1]; [tauto|].
    apply (enc_step deep_heap a 1 0 eq_refl) in H1 as [->|H1]; [tauto|]. now apply (enc_none deep_heap a 0 eq_refl) in H1.
  - destruct H1 as [<-|H1]; [tauto|]. apply (enc_step deep_heap a 5 3 eq_refl) in H1 as [->|H1]; [tauto|]. apply (enc_step deep_heap a 3 1 eq_refl) in H1 as [->|H1]; [tauto|].
    apply (enc_step deep_heap a 1 0 eq_refl) in H1 as [->|H1]; [tauto|]. now apply (enc_none deep_heap a 0 eq_refl) in H1.
Qed.
Lemma deep_top a u e j : encloses deep_heap a 9 -> ~ gives deep_heap a u e j.
Proof.
  intros H [Ht _]. apply (enc_step deep_heap a 9 0 eq_refl) in H as [->|H]; [|now apply (enc_none deep_heap a 0 eq_refl) in H].
  apply deep_templates in Ht as [[E _]|[E _]]; discriminate E.
Qed.
Lemma deep_partner : partner deep_heap 9 1 10 3.
Proof. split; [sole_by (@nil nat) (@nil nat)|split; [sole_by [2] (@nil nat)|vm_compute; reflexivity]]. Qed.
Lemma deep_partner' : partner deep_heap 10 3 12 5.
Proof. split; [sole_by [11] (@nil nat)|split; [sole_by [4] (@nil nat)|vm_compute; reflexivity]]. Qed.
Lemma deep_lists : merged_list deep_heap 10 [11; 12; 4] /\ merged_list deep_heap 12 [6] /\ template_is true deep_heap 10 7.
Proof.
  split; [|split].
  - apply (ml_over deep_heap 10 3 [4; 5] [4]); [|exact (ml_own deep_heap 3 (deep_own 3 (or_introl eq_refl)))|].
    + exists 9, 1. split; [split; [|intros; now apply deep_top]|left; vm_compute; discriminate].
      split; [exact deep_copy_9|]. change (pairs deep_heap 9 1 10 3). eapply pa_inner; [exact deep_partner|constructor].
    + apply wo_keep; [|apply wo_drop; [|constructor]].
      * intros (y & Hy & K). vm_compute in Hy. destruct Hy as [<-|[<-|[]]]; vm_compute in K; discriminate K.
      * exists 12. split; [vm_compute; tauto|vm_compute; reflexivity].
  - apply (ml_over deep_heap 12 5 [6] [6]); [|exact (ml_own deep_heap 5 (deep_own 5 (or_intror eq_refl)))|].
    + exists 9, 1. split; [split; [|intros; now apply deep_top]|right; left; vm_compute; discriminate].
      split; [exact deep_copy_9|]. change (pairs deep_heap 9 1 12 5). eapply pa_inner; [exact deep_partner|]. eapply pa_inner; [exact deep_partner'|constructor].
    + apply wo_keep; [|constructor]. intros (y & Hy & _). vm_compute in Hy. destruct Hy.
  - apply (template_cands true deep_heap 10 (U "other") 7); [|vm_compute; reflexivity]. split; [apply Nat.ltb_lt; vm_compute; reflexivity|split; vm_compute; reflexivity].
Qed.

