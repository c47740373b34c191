(** PrintExamples: errors of concrete documents that can and cannot be reported. *)
From Verif Require Import Base Types Messages Analyzer Reporter Errors Context Faults SpecText SpecTree SpecPrint SessionRun QueryExamples PrintProofs.

Definition ctx_with (rk : reporter_kind) (inp : text) : ctx :=
  match parse_context inp en rk None with Ok c => c | Raise _ => MkCtx inp en rk None [] [] 0 end.
Definition reported (r : res eno_error) : option exn := match r with Ok _ => None | Raise e => Some e end.

(** an element of each kind; section 9 is a copy *)
Definition p_doc : text := U "> about
a: 1
b:
- x
c:
k = v
# s
d:
e:
# t < s
f: 2
".
Lemma p_parsed rk : parse_context p_doc en rk None = Ok (ctx_with rk p_doc).
Proof. destruct rk; vm_compute; reflexivity. Qed.
Definition p_complaints : list complaint :=
  [BadComment [] 1; BadElement [] 2; BadKey [] 5; BadValue [] 3; NoComment 6; NoElement None 9 Q_missing_field; NoValue 7; NotExpected None 4; TooMany None [2; 4] Q_expected_single_field;
   OtherKind None 9 Q_expected_section].
(** each of these is reported by each reporter, *)
Example p_reported : map (fun rk => map (fun v => reported (validation_error (ctx_with rk p_doc) v)) p_complaints) [TextReporter; HtmlReporter; TerminalReporter] =
  repeat (repeat None 10) 3.
Proof. vm_compute. reflexivity. Qed.
Example p_no_deep : no_deep_copies (c_heap (ctx_with TerminalReporter p_doc)).
Proof.
  assert (forallb (fun n => match rget (n_ranges n) R_deep_copy_operator with None => true | _ => false end) (c_heap (ctx_with TerminalReporter p_doc)) = true) as H by (vm_compute; reflexivity).
  generalize dependent (c_heap (ctx_with TerminalReporter p_doc)). intros h H e. rewrite forallb_forall in H. destruct (Nat.lt_ge_cases e (length h)) as [Hl|Hl].
  - specialize (H _ (nth_In _ document_node Hl)). change (nth e h document_node) with (hget h e) in H. destruct (rget (n_ranges (hget h e)) R_deep_copy_operator); [discriminate|reflexivity].
  - unfold hget. rewrite nth_overflow by assumption. reflexivity.
Qed.
Example p_known rk : Forall (fun v => Forall (fun e => e < length (c_heap (ctx_with rk p_doc))) (concerned v)) p_complaints.
Proof.
  assert (forallb (fun v => forallb (fun e => Nat.ltb e (length (c_heap (ctx_with rk p_doc)))) (concerned v)) p_complaints = true) as H by (destruct rk; vm_compute; reflexivity).
  generalize dependent (c_heap (ctx_with rk p_doc)). intros h H. apply Forall_forall. intros v Hv. apply Forall_forall. intros e He. rewrite forallb_forall in H. specialize (H v Hv). rewrite forallb_forall in H. now apply Nat.ltb_lt, H.
Qed.

(** * Errors that cannot be reported *)

Definition fails_with (rk : reporter_kind) (inp : text) (v : complaint) (e : exn) : Prop :=
  parse_context inp en rk None = Ok (ctx_with rk inp) /\ Forall (fun e => e < length (c_heap (ctx_with rk inp))) (concerned v) /\
  validation_error (ctx_with rk inp) v = Raise e.
Ltac fails := split; [vm_compute; reflexivity|]; split; [vm_compute; repeat constructor|vm_compute; reflexivity].

Definition deep_doc : text := U "# a
x: 1
# b << a".
Lemma gap_fails : exists inp v, fails_with TextReporter inp v TypeError.
Proof. exists broken_doc, (BadElement [] 1). fails. Qed.
Lemma comment_fails : exists inp v, fails_with TextReporter inp v KeyError /\ exists m e, v = BadComment m e /\ n_type (hget (c_heap (ctx_with TextReporter inp)) e) = FIELD.
Proof. exists (U "a: 1"), (BadComment [] 1). split; [fails|]. exists [], 1. split; [reflexivity|vm_compute; reflexivity]. Qed.
Lemma item_fails : exists inp v, fails_with TextReporter inp v KeyError /\ exists m e, v = BadKey m e /\ n_type (hget (c_heap (ctx_with TextReporter inp)) e) = LIST_ITEM.
Proof. exists p_doc, (BadKey [] 3). split; [fails|]. exists [], 3. split; [reflexivity|vm_compute; reflexivity]. Qed.
Lemma document_fails : exists inp, fails_with TextReporter inp (BadElement [] 0) KeyError.
Proof. exists p_doc. fails. Qed.
Lemma deep_fails : exists inp v, fails_with TerminalReporter inp v KeyError /\ reportable (c_heap (ctx_with TerminalReporter inp)) v.
Proof.
  exists deep_doc, (BadKey [] 3). split; [fails|]. split; [discriminate|vm_compute; discriminate].
Qed.
Lemma line_fails : exists inp, parse_context inp en TerminalReporter None = Raise KeyError /\ exists x, parse_context inp en TextReporter None = Raise (ParseError x).
Proof. exists (U "x"). split; [vm_compute; reflexivity|]. eexists. vm_compute. reflexivity. Qed.
