(** LookupExamples: positions in concrete documents. *)
From Coq Require Import ZArith.
From Verif Require Import Base Types Messages Analyzer Reporter Errors Context SpecText SpecTree Lookup SpecLookup SessionRun PropAnalysisProofs.

Definition l_doc : text := U "> for the document

title: x
| y
list:
- a

- b
| more
# part
> about
-- text
one
-- text
pair:
k = v
".
Definition l_tail : text := U "list:
- a
| b".
Definition l_gap : text := U "list:
- a

- b".


Ltac no_feed := let H := fresh in intro H; vm_compute in H; intuition discriminate.

(** on each line of the document: element and range, by index and by line *)
Definition at_i (i : nat) := lookup_in (ctx_of l_doc) None (Some (Z.of_nat i)) None.
Definition at_l (l col : nat) := lookup_in (ctx_of l_doc) (Some (Z.of_nat col)) None (Some (Z.of_nat l)).
Example l_parsed : parse_context l_doc en TextReporter None = Ok (ctx_of l_doc). Proof. vm_compute. reflexivity. Qed.
Example l_types : map n_type (c_heap (ctx_of l_doc)) = [DOCUMENT; FIELD; LIST; LIST_ITEM; LIST_ITEM; SECTION; MULTILINE_FIELD_BEGIN; FIELDSET; FIELDSET_ENTRY].
Proof. vm_compute. reflexivity. Qed.
Example l_lines : map (fun l => at_l l 0) (seq 0 15) =
  [Ok (0, Some R_comment_operator); Ok (0, None); Ok (1, Some R_key); Ok (1, Some R_direct_line_continuation_operator); Ok (2, Some R_key); Ok (3, Some R_item_operator); Ok (2, None);
   Ok (4, Some R_item_operator); Ok (0, None); Ok (5, Some R_section_operator); Ok (5, None); Ok (6, Some R_multiline_field_operator); Ok (6, Some R_value);
   Ok (6, Some R_multiline_field_operator); Ok (7, Some R_key)].
Proof. vm_compute. reflexivity. Qed.
Example l_inside : at_i 22 = Ok (1, Some R_key) /\ at_i 25 = Ok (1, Some R_element_operator) /\ at_i 0 = Ok (0, None) /\ at_i (length l_doc) = Ok (5, None).
Proof. vm_compute. auto. Qed.

Example l_single : forall x, 0 < x < length (c_heap (ctx_of l_doc)) -> single_line l_doc (line_range (n_ranges (hget (c_heap (ctx_of l_doc)) x))).
Proof.
  assert (forallb (fun n => forallb (fun k => negb (N.eqb k nl)) (at_range l_doc (line_range (n_ranges n)))) (tl (c_heap (ctx_of l_doc))) = true) as H by (vm_compute; reflexivity).
  remember (c_heap (ctx_of l_doc)) as h eqn:E. clear E. intros x Hx Hin. rewrite forallb_forall in H. destruct h as [|d h]; [cbn in Hx; lia|]. destruct x as [|x]; [lia|].
  assert (In (hget (d :: h) (S x)) h) as Hn by (cbn; apply nth_In; cbn in Hx; lia).
  specialize (H _ Hn). rewrite forallb_forall in H. specialize (H _ Hin). now rewrite N.eqb_refl in H.
Qed.
Example l_position : position l_doc 3 2 31.
Proof.
  exists 29. split; [right; vm_compute; reflexivity|]. split; [reflexivity|]. split; [apply Nat.leb_le; vm_compute; reflexivity|]. split; [vm_compute; reflexivity|no_feed].
Qed.
(** nothing of the document is behind the own line of a last item, except the continuation *)
Example l_stretch : stretch (c_heap (ctx_of l_doc)) 2 = 47 /\ text_stretch (c_heap (ctx_of l_doc)) 2 = 54.
Proof. vm_compute. auto. Qed.

Definition tail_leaf : leaf := match rest (hget (c_heap (ctx_of l_tail)) 2) with k :: _ => k | [] => MkLeaf None 0 [] None false end.
Definition tail_ranges : ranges := l_ranges tail_leaf.
(** a continuation of the last item: lookup ends the list with the own line of its last item *)
Lemma tail_missed : exists inp i x y o rs, parse_context inp en TextReporter None = Ok (ctx_of inp) /\
  line_at (hget (c_heap (ctx_of inp)) x) i rs /\ true_innermost (c_heap (ctx_of inp)) i x /\
  lookup_in (ctx_of inp) None (Some (Z.of_nat i)) None = Ok (y, o) /\ y <> x.
Proof.
  exists l_tail, 12, 2, 0, None, tail_ranges. split; [vm_compute; reflexivity|]. split; [|split; [|split; [vm_compute; reflexivity|discriminate]]].
  - split; [right; exists tail_leaf|exists (10, 13); split; [vm_compute; reflexivity|unfold on; cbn; lia]].
    split; [|reflexivity]. assert (rest (hget (c_heap (ctx_of l_tail)) 2) = [tail_leaf]) as -> by (vm_compute; reflexivity). now left.
  - split; [apply Nat.ltb_lt; vm_compute; reflexivity|]. split.
    + split; [right; apply Nat.leb_le; vm_compute; reflexivity|]. change (n_type (hget (c_heap (ctx_of l_tail)) 2)) with LIST_ITEM.
      split; [apply Nat.leb_le; vm_compute; reflexivity|]. exists 1. split; [vm_compute; reflexivity|apply Nat.leb_le; vm_compute; reflexivity].
    + intros y [H1 H2]. assert (length (c_heap (ctx_of l_tail)) = 3) as E by (vm_compute; reflexivity). rewrite E in H2. lia.
Qed.
(** an empty line between two items: lookup finds the list *)
Lemma gap_found : exists inp i x o, parse_context inp en TextReporter None = Ok (ctx_of inp) /\
  (forall y rs, y < length (c_heap (ctx_of inp)) -> ~ line_at (hget (c_heap (ctx_of inp)) y) i rs) /\
  lookup_in (ctx_of inp) None (Some (Z.of_nat i)) None = Ok (x, o) /\ n_type (hget (c_heap (ctx_of inp)) x) = LIST.
Proof.
  exists l_gap, 10, 1, None. split; [vm_compute; reflexivity|]. split; [|split; vm_compute; reflexivity].
  assert (forallb (fun n => match rest n with [] => match rget (n_ranges n) R_line with Some s => negb (Nat.leb (fst s) 10 && Nat.leb 10 (snd s)) | None => true end | _ => false end) (c_heap (ctx_of l_gap)) = true) as H by (vm_compute; reflexivity).
  remember (c_heap (ctx_of l_gap)) as h eqn:E. clear E. intros y rs Hy Hl. rewrite forallb_forall in H. specialize (H (hget h y) (nth_In h document_node Hy)).
  destruct Hl as (Hl & s & Es & Ho). destruct (rest (hget h y)) as [|k l]; [|discriminate]. destruct Hl as [->|(k & [] & _)]. rewrite Es in H.
  destruct Ho as [H1 H2]. apply Nat.leb_le in H1, H2. rewrite H1, H2 in H. discriminate.
Qed.

(** no column *)
Lemma column_missing : exists inp, parse_context inp en TextReporter None = Ok (ctx_of inp) /\ lookup_in (ctx_of inp) None None (Some 0%Z) = Raise TypeError.
Proof. exists (U "a: b"). split; vm_compute; reflexivity. Qed.

(** a comment at the document: found by line, not by index *)
Lemma comment_by_index : exists inp l col i x o, parse_context inp en TextReporter None = Ok (ctx_of inp) /\
  (forall y, 0 < y < length (c_heap (ctx_of inp)) -> single_line inp (line_range (n_ranges (hget (c_heap (ctx_of inp)) y)))) /\ position inp l col i /\
  lookup_in (ctx_of inp) (Some (Z.of_nat col)) None (Some (Z.of_nat l)) = Ok (x, Some o) /\
  lookup_in (ctx_of inp) None (Some (Z.of_nat i)) None = Ok (x, None).
Proof.
  exists (U "> c"), 0, 2, 2, 0, R_comment. split; [vm_compute; reflexivity|]. split; [intros y [H1 H2]|].
  { assert (length (c_heap (ctx_of (U "> c"))) = 1) as E by (vm_compute; reflexivity). rewrite E in H2. lia. }
  split; [|split; vm_compute; reflexivity]. exists 0. split; [now left|]. split; [reflexivity|]. split; [cbn; lia|]. split; [reflexivity|no_feed].
Qed.
(** an instruction over several lines: another element by line than by index *)
Lemma crossing_lines : exists inp l col i x y o o', parse_context inp en TextReporter None = Ok (ctx_of inp) /\ position inp l col i /\
  lookup_in (ctx_of inp) (Some (Z.of_nat col)) None (Some (Z.of_nat l)) = Ok (x, o) /\
  lookup_in (ctx_of inp) None (Some (Z.of_nat i)) None = Ok (y, o') /\ x <> y.
Proof.
  exists crossing, 1, 0, 2, 2, 1, (Some R_key), (Some R_element_operator). split; [vm_compute; reflexivity|]. split; [|split; [|split]; try (vm_compute; reflexivity); discriminate].
  exists 2. split; [right; reflexivity|]. split; [reflexivity|]. split; [cbn; lia|]. split; [reflexivity|no_feed].
Qed.
