(** CopiesExamples: concrete documents for PropCopies. *)
From Coq Require Import Relations.
From Verif Require Import Base Types Messages Reporter Errors Context Elements SpecTree SpecResolve SpecRead SpecApi SpecQuery SpecLinks Session SessionRun
  PropParseProofs PropCopiesProofs.

Lemma template_cands (b : bool) h i k t : copies b h i k -> cands b h k = [t] -> template_is b h i t.
Proof.
  intros Hc E. exists k. split; [assumption|]. split; [apply cand_dec; rewrite E; now left|]. intros t' Ht'. apply cand_dec in Ht'. rewrite E in Ht'. now destruct Ht' as [->|[]].
Qed.
Lemma in_heap h i : n_parent (hget h i) <> None -> i < length h.
Proof. intro H. destruct (Nat.lt_ge_cases i (length h)) as [|L]; [assumption|]. unfold hget in H. rewrite nth_overflow in H by assumption. now destruct H. Qed.

(** ** A section that takes over its own elements *)
Definition loop_doc : text := U "# a
## x < x
# b << a
## x
foo: 1".
Definition loop_heap : heap := Eval vm_compute in c_heap (ctx_of loop_doc).
Lemma loop_heap_is : c_heap (ctx_of loop_doc) = loop_heap. Proof. vm_compute. reflexivity. Qed.
Lemma loop_links z : ends loop_heap z -> z <> 2 /\ z <> 4.
Proof.
  intro E. induction E as [z [H1 H2]|z m H1 H2 IH|z t [H1 H2] H3 IH].
  - split; intros ->; [discriminate H1|discriminate H2].
  - split; intros ->; [injection H1 as <-; now destruct IH|discriminate H1].
  - split; intros ->; [discriminate H1|]; injection H2 as <-; now destruct IH.
Qed.
Lemma loop_never c fuel o s : c_heap c = loop_heap -> snd (instantiate_elements fuel o 2 (MkSt c s)) <> Ok tt.
Proof.
  intros Hc H. destruct (instantiate_elements fuel o 2 (MkSt c s)) as [s' v] eqn:E. cbn [snd] in H. subst v. apply instantiate_ends in E. cbn [s_ctx] in E.
  rewrite Hc in E. now apply loop_links in E.
Qed.
Lemma loop_parsed : parse_context loop_doc en TextReporter None = Ok (ctx_of loop_doc). Proof. vm_compute. reflexivity. Qed.
Definition loop_calls : list call := [Query (Some KSection) 0 (Some (U "a")) None; Query (Some KSection) 3 (Some (U "x")) None].
Lemma loop_reach : reach (ctx_of loop_doc) (session loop_doc loop_calls). Proof. apply session_reach. vm_compute. reflexivity. Qed.
Lemma never_ends : exists inp c s o e, parse_context inp en TextReporter None = Ok c /\ reach c s /\ names s o CSection e /\ o_children (oget s o) = None /\
  snd (section_elements o None s) = Raise Fuel /\ forall fuel s', snd (instantiate_elements fuel o e (MkSt c s')) <> Ok tt.
Proof.
  exists loop_doc, (ctx_of loop_doc), (session loop_doc loop_calls), 5, 2. split; [exact loop_parsed|]. split; [exact loop_reach|].
  split; [split; [apply Nat.ltb_lt; vm_compute; reflexivity|split; vm_compute; reflexivity]|]. split; [vm_compute; reflexivity|]. split; [vm_compute; reflexivity|].
  intros fuel s'. apply loop_never. exact loop_heap_is.
Qed.

(** ** A deep copy with matching subsections *)
Definition merge_doc : text := U "# a
## x
f: 1
# b << a
## x
g: 2".
Definition merge_heap : heap := Eval vm_compute in c_heap (ctx_of merge_doc).
Lemma merge_parsed : parse_context merge_doc en TextReporter None = Ok (ctx_of merge_doc). Proof. vm_compute. reflexivity. Qed.
Lemma merge_template i j : template_is true merge_heap i j -> i = 4 /\ j = 1.
Proof. intros (k & H1 & H2 & _). apply all_copies_in in H1. apply cand_dec in H2. one_of H1. vm_compute in H2. now destruct H2 as [<-|[]]. Qed.
Lemma merge_founded : well_founded_copies (c_heap (ctx_of merge_doc)) /\ merged (c_heap (ctx_of merge_doc)) 5 2.
Proof.
  assert (c_heap (ctx_of merge_doc) = merge_heap) as -> by (vm_compute; reflexivity).
  assert (forall s i, n_parent (hget merge_heap i) = Some s -> is_section (hget merge_heap i) -> s = 4 /\ i = 5 \/ s = 1 /\ i = 2 \/ s = 0 /\ (i = 1 \/ i = 4)) as Hp.
  { intros s i Hi Hs. assert (i < 7) as Hlt by (apply (in_heap merge_heap); congruence).
    destruct i as [|[|[|[|[|[|[|i]]]]]]]; try lia; vm_compute in Hi, Hs; try discriminate; injection Hi as <-; auto. }
  assert (template_is true merge_heap 4 1) as T by (apply (template_cands true merge_heap 4 (U "a") 1); [split; [vm_compute; lia|split; vm_compute; reflexivity]|vm_compute; reflexivity]).
  split.
  - assert (forall i j, merged merge_heap i j -> i = 4 /\ j = 1 \/ i = 5 /\ j = 2) as Hm.
    { induction 1 as [i j Ht Hd|s t i j Hm IH Hi Hj Si Sj Hk]; [left; now apply merge_template|]. apply Hp in Hi; [|assumption]. apply Hp in Hj; [|assumption]. lia. }
    assert (forall i j, clos_trans nat (draws_on merge_heap) i j -> j < i) as Hd.
    { induction 1 as [i j [H|H]|]; [apply merge_template in H; lia|apply Hm in H; lia|lia]. }
    intros i H. apply Hd in H. lia.
  - apply (mg_inner merge_heap 4 1); try (vm_compute; reflexivity). apply mg_copy; [assumption|vm_compute; reflexivity].
Qed.
Lemma merge_answers : let s := session merge_doc [Query (Some KSection) 0 (Some (U "b")) None; Query (Some KSection) 3 (Some (U "x")) None] in
  names s 5 CSection 5 /\ exists y1 y2, snd (section_elements 5 None s) = Ok [y1; y2].
Proof.
  split; [split; [apply Nat.ltb_lt; vm_compute; reflexivity|split; vm_compute; reflexivity]|]. do 2 eexists. vm_compute. reflexivity.
Qed.

(** ** A chain of copied sections *)
Definition chain_doc : text := U "# s
a: 1
b: 2
# t < s
b: 3
# u < t
c: 4
# v < u".
Definition chain_heap : heap := Eval vm_compute in c_heap (ctx_of chain_doc).
Lemma chain_parsed : parse_context chain_doc en TextReporter None = Ok (ctx_of chain_doc). Proof. vm_compute. reflexivity. Qed.
Lemma chain_template i j : template_is true chain_heap i j -> i = 4 /\ j = 1 \/ i = 6 /\ j = 4 \/ i = 8 /\ j = 6.
Proof. intros (k & H1 & H2 & _). apply all_copies_in in H1. apply cand_dec in H2. one_of H1; vm_compute in H2; (destruct H2 as [<-|[]]); auto. Qed.
Lemma chain_shallow a : n_deep_copy (hget chain_heap a) = false.
Proof. do 9 (destruct a as [|a]; [reflexivity|]). unfold hget. rewrite nth_overflow by (vm_compute; lia). reflexivity. Qed.
Lemma chain_plain e : copied_plainly chain_heap e.
Proof.
  assert (forall e, e < 9 -> copied_plainly chain_heap e) as G.
  { intro i. induction i as [i IH] using lt_wf_ind. intro Hi. constructor; [intros; apply chain_shallow|]. intros t Ht. apply chain_template in Ht. apply IH; lia. }
  destruct (Nat.lt_ge_cases e 9) as [H|H]; [now apply G|]. constructor; [intros; apply chain_shallow|]. intros t Ht. apply chain_template in Ht. lia.
Qed.
Lemma chain_no_deep : no_deep_sections chain_heap.
Proof. intros a i H. rewrite chain_shallow in H. discriminate. Qed.
Lemma chain_list : section_list chain_heap 8 [7; 5; 2].
Proof.
  assert (forall i k t, i < 9 -> n_type (hget chain_heap i) = SECTION -> n_template (hget chain_heap i) = Some k -> cands true chain_heap k = [t] -> template_is true chain_heap i t) as T.
  { intros i k t H1 H2 H3 H4. apply (template_cands true chain_heap i k t); [|assumption]. split; [exact H1|]. split; assumption. }
  assert (section_list chain_heap 4 ([5] ++ [2])) as H4.
  { apply (sl_copy chain_heap 4 1 [2; 3] [2]); [apply (T 4 (U "s")); (lia || (vm_compute; reflexivity))|apply (sl_own chain_heap 1); reflexivity|].
    apply wo_keep; [intros (y & Hy & Hk); vm_compute in Hy; destruct Hy as [<-|[]]; vm_compute in Hk; discriminate|].
    apply wo_drop; [exists 5; split; [vm_compute; auto|vm_compute; reflexivity]|constructor]. }
  assert (section_list chain_heap 6 ([7] ++ [5; 2])) as H6.
  { apply (sl_copy chain_heap 6 4 [5; 2] [5; 2]); [apply (T 6 (U "t")); (lia || (vm_compute; reflexivity))|exact H4|].
    apply wo_keep; [intros (y & Hy & Hk); vm_compute in Hy; destruct Hy as [<-|[]]; vm_compute in Hk; discriminate|].
    apply wo_keep; [intros (y & Hy & Hk); vm_compute in Hy; destruct Hy as [<-|[]]; vm_compute in Hk; discriminate|constructor]. }
  apply (sl_copy chain_heap 8 6 [7; 5; 2] [7; 5; 2]); [apply (T 8 (U "u")); (lia || (vm_compute; reflexivity))|exact H6|].
  repeat (apply wo_keep; [intros (y & Hy & Hk); destruct Hy|]). constructor.
Qed.
Lemma chain_copies : let h := c_heap (ctx_of chain_doc) in
  no_deep_sections h /\ copied_plainly h 8 /\ section_list h 8 [7; 5; 2] /\ is_section (hget h 8).
Proof.
  cbv zeta. assert (c_heap (ctx_of chain_doc) = chain_heap) as -> by (vm_compute; reflexivity).
  split; [exact chain_no_deep|]. split; [apply chain_plain|]. split; [exact chain_list|reflexivity].
Qed.

(** ** A subsection whose own template is forgotten *)
Definition over_doc : text := U "# t
foo: 1
# a
## x
bar: 1
# b << a
## x < t
baz: 1".
Definition over_heap : heap := Eval vm_compute in c_heap (ctx_of over_doc).
Lemma over_parsed : parse_context over_doc en TextReporter None = Ok (ctx_of over_doc). Proof. vm_compute. reflexivity. Qed.
Definition over_calls : list call := [Query (Some KSection) 0 (Some (U "b")) None; Query (Some KSection) 4 (Some (U "x")) None].
Lemma overridden : exists inp c s o e L ys, parse_context inp en TextReporter None = Ok c /\ reach c s /\ names s o CSection e /\ section_list (c_heap c) e L /\
  snd (section_elements o None s) = Ok ys /\ map (fun y => o_instr (oget (fst (section_elements o None s)) y)) ys <> L.
Proof.
  exists over_doc, (ctx_of over_doc), (session over_doc over_calls), 6, 7, [8; 2]. 
  assert (section_list (c_heap (ctx_of over_doc)) 7 [8; 2]) as HL.
  { assert (c_heap (ctx_of over_doc) = over_heap) as -> by (vm_compute; reflexivity). change [8; 2] with ([8] ++ [2]).
    apply (sl_copy over_heap 7 1 [2] [2]); [|apply (sl_own over_heap 1); reflexivity|].
    - apply (template_cands true over_heap 7 (U "t") 1); [split; [vm_compute; lia|split; vm_compute; reflexivity]|vm_compute; reflexivity].
    - apply wo_keep; [intros (y & Hy & Hk); vm_compute in Hy; destruct Hy as [<-|[]]; vm_compute in Hk; discriminate|constructor]. }
  eexists. split; [exact over_parsed|]. split; [apply session_reach; vm_compute; reflexivity|].
  split; [split; [apply Nat.ltb_lt; vm_compute; reflexivity|split; vm_compute; reflexivity]|]. split; [exact HL|].
  split; [vm_compute; reflexivity|]. vm_compute. discriminate.
Qed.
