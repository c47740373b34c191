(** InheritExamples: documents for C48 and C49. *)
From Coq Require Import Relations.
From Verif Require Import Base Types Messages Analyzer Resolver SpecTree SpecResolve SpecLinks Reporter Errors Context SpecInherit PropParseProofs.

Definition parsed_of (t : text) : heap := match parse_context t en TextReporter None with Ok c => c_heap c | Raise _ => [] end.
Definition parses (t : text) : bool := match parse_context t en TextReporter None with Ok _ => true | Raise _ => false end.

(** of the elements after [l], [m] copies a list, [n] adds an item and has a comment, [f] copies a
    multiline field *)
Definition kinds_doc : text := U "> of the list
l:
- one
m < l
> of n
n < m
- two
-- t
text
-- t
f < t
g < f
> of e
e:
h < e
k = v".
(** [f] gets an entry *)
Definition stray_doc : text := U "a: 1
b < a
l:
- one
f < l
k = v
j = w".
(** [v] copies [u] copies [s] *)
Definition sections_doc : text := U "> about s
# s
a: 1
# u < s
b: 2
> about w
# w < u
# v < u".
(** [x] in [d] is merged with [x] in [s] *)
Definition merge_doc : text := U "# s
> inner
## x
a: 1
# d << s
## x
b: 2".

Definition kinds_heap : heap := Eval vm_compute in nodes_of kinds_doc.
Definition kinds_parsed : heap := Eval vm_compute in parsed_of kinds_doc.
Definition stray_heap : heap := Eval vm_compute in nodes_of stray_doc.
Definition sections_heap : heap := Eval vm_compute in nodes_of sections_doc.
Definition merge_heap : heap := Eval vm_compute in nodes_of merge_doc.

(** the only candidate is the template *)
Lemma template_by sec h i k t : copies sec h i k -> cands sec h k = [t] -> template_is sec h i t.
Proof.
  intros H1 H2. exists k. split; [assumption|]. split; [apply cand_dec; rewrite H2; now left|]. intros t' H. apply cand_dec in H. rewrite H2 in H. now destruct H as [->|[]].
Qed.
Ltac is_copy := split; [vm_compute; lia|split; [vm_compute; exact I|vm_compute; reflexivity]].

Lemma kinds_meant : parses kinds_doc = true /\
  template_is false (nodes_of kinds_doc) 3 1 /\ template_is false (nodes_of kinds_doc) 4 3 /\ template_is false (nodes_of kinds_doc) 8 7 /\
  map (fun i => n_type (hget (nodes_of kinds_doc) i)) [1; 3; 4; 6; 7; 8; 9; 10] =
    [LIST; EMPTY_ELEMENT; LIST; MULTILINE_FIELD_BEGIN; EMPTY_ELEMENT; EMPTY_ELEMENT; EMPTY_ELEMENT; FIELDSET] /\
  map (fun i => n_type (hget (parsed_of kinds_doc) i)) [1; 3; 4; 6; 7; 8; 9; 10] =
    [LIST; LIST; LIST; MULTILINE_FIELD_BEGIN; FIELD; FIELD; EMPTY_ELEMENT; FIELDSET].
Proof.
  assert (nodes_of kinds_doc = kinds_heap) as -> by (vm_compute; reflexivity).
  split; [vm_compute; reflexivity|].
  split; [apply (template_by _ _ _ (U "l")); [is_copy|vm_compute; reflexivity]|].
  split; [apply (template_by _ _ _ (U "m")); [is_copy|vm_compute; reflexivity]|].
  split; [apply (template_by _ _ _ (U "f")); [is_copy|vm_compute; reflexivity]|].
  split; vm_compute; reflexivity.
Qed.

Lemma stray_hypotheses :
  (exists x, stray_entry (nodes_of stray_doc) x \/ stray_item (nodes_of stray_doc) x) /\
  (forall c f e, ~ ambiguous (nodes_of stray_doc) c f e) /\ (forall sec i, ~ dangling sec (nodes_of stray_doc) i) /\
  (forall sec i, ~ on_cycle sec (nodes_of stray_doc) i).
Proof.
  assert (nodes_of stray_doc = stray_heap) as -> by (vm_compute; reflexivity).
  assert (template_is false stray_heap 5 3) as H5 by (apply (template_by _ _ _ (U "l")); [is_copy|vm_compute; reflexivity]).
  split; [|split; [|split]].
  - exists 6. left. exists 5, 3, LIST. split; [exact H5|]. split; [reflexivity|]. split; [reflexivity|]. split; [reflexivity|]. split; [|auto].
    apply (me_own stray_heap 3). left. reflexivity.
  - apply not_ambiguous. repeat constructor.
  - intros sec i (k & H1 & H2). apply all_copies_in in H1. one_of H1; [apply (H2 1)|apply (H2 3)]; apply cand_dec; vm_compute; auto.
  - intros sec i H. assert (forall a b, depends sec stray_heap a b -> b < a) as K.
    { intros a b [(k & H1 & H2 & _)|(_ & H1 & _)].
      - apply all_copies_in in H1. apply cand_dec in H2. one_of H1; one_of H2; lia.
      - do 8 (destruct a as [|a]; [discriminate H1|]). unfold hget in H1. rewrite nth_overflow in H1 by (vm_compute; lia). discriminate H1. }
    assert (forall a b, clos_trans nat (depends sec stray_heap) a b -> b < a) as G by (intros a b Hab; induction Hab; [auto|lia]).
    apply G in H. lia.
Qed.

Lemma kinds_commented :
  map (fun i => match n_comments (hget (parsed_of kinds_doc) i) with Some l => map (fun x => l_text x) l | None => [] end) [1; 3; 4; 9; 10] =
    [[Some (U "of the list")]; [Some (U "of the list")]; [Some (U "of n")]; [Some (U "of e")]; [Some (U "of e")]].
Proof. vm_compute. reflexivity. Qed.

Lemma sections_commented : parses sections_doc = true /\ outside_deep (nodes_of sections_doc) 5 /\ outside_deep (nodes_of sections_doc) 6 /\
  map (fun i => match n_comments (hget (parsed_of sections_doc) i) with Some l => map (fun x => l_text x) l | None => [] end) [1; 3; 5; 6] =
    [[Some (U "about s")]; [Some (U "about s")]; [Some (U "about w")]; [Some (U "about s")]].
Proof.
  assert (nodes_of sections_doc = sections_heap) as -> by (vm_compute; reflexivity).
  assert (forall i, outside_deep sections_heap i) as H.
  { intros i j _ a _. do 7 (destruct a as [|a]; [reflexivity|]). unfold hget. rewrite nth_overflow by (vm_compute; lia). reflexivity. }
  split; [vm_compute; reflexivity|]. split; [apply H|]. split; [apply H|vm_compute; reflexivity].
Qed.
Lemma merge_commented : parses merge_doc = true /\ clos_trans nat (draws_on (nodes_of merge_doc)) 5 2 /\
  n_comments (hget (nodes_of merge_doc) 5) = None /\
  match n_comments (hget (parsed_of merge_doc) 5) with Some l => map (fun x => l_text x) l | None => [] end = [Some (U "inner")].
Proof.
  split; [vm_compute; reflexivity|]. split; [|split; vm_compute; reflexivity].
  assert (nodes_of merge_doc = merge_heap) as -> by (vm_compute; reflexivity).
  apply t_step. right. apply (mg_inner _ 4 1); try (vm_compute; reflexivity).
  apply mg_copy; [|vm_compute; reflexivity]. apply (template_by _ _ _ (U "s")); [split; [vm_compute; lia|split; vm_compute; reflexivity]|vm_compute; reflexivity].
Qed.
