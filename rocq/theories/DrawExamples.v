(** DrawExamples: one error as each reporter shows it (support for C54). *)
From Verif Require Import Base Types Messages Analyzer Reporter Errors Context Faults SpecText SpecReport SpecSnippet SpecDraw QueryExamples PrintExamples.

(** [b] copies [a] with all its sections *)
Definition draw_doc : text := U "# a
x: 1

y: < & 2

# c
z: 3

# b << a".
Definition snippet_of (rk : reporter_kind) (v : complaint) : option text := match validation_error (ctx_with rk draw_doc) v with Ok x => Some (er_snippet x) | _ => None end.

Lemma draw_parsed rk : parse_context draw_doc en rk None = Ok (ctx_with rk draw_doc).
Proof. destruct rk; vm_compute; reflexivity. Qed.
Definition draw_rows : list row :=
  [Dots; Line 2 Near (U "x: 1"); Line 3 Near []; Line 4 Main (U "y: < & 2"); Line 5 Near []; Line 6 Near (U "# c"); Dots].
Lemma draw_text : exists t, snippet_of TextReporter (BadKey [] 3) = Some t /\ text_report en None draw_rows t.
Proof.
  eexists. split; [vm_compute; reflexivity|]. eexists. split; [|shelve]. repeat constructor.
  Unshelve. vm_compute. reflexivity.
Qed.
(** it is shown in the terminal too, but not an error within two lines of the copy *)
Lemma draw_terminal : (exists t, snippet_of TerminalReporter (BadKey [] 3) = Some t) /\ (exists t, snippet_of TextReporter (BadKey [] 5) = Some t) /\
  validation_error (ctx_with TerminalReporter draw_doc) (BadKey [] 5) = Raise KeyError.
Proof. split; [eexists; vm_compute; reflexivity|]. split; [eexists; vm_compute; reflexivity|]. vm_compute. reflexivity. Qed.
Lemma draw_copy : copies_deeply (c_heap (ctx_with TerminalReporter draw_doc)) 6 /\ ~ shows_line (n_line (hget (c_heap (ctx_with TerminalReporter draw_doc)) 6) + 1) draw_rows.
Proof.
  split; [split; [vm_compute; split; repeat constructor|vm_compute; discriminate]|].
  replace (n_line (hget (c_heap (ctx_with TerminalReporter draw_doc)) 6) + 1) with 9 by (vm_compute; reflexivity). intros (m & t & H). cbn in H. intuition discriminate.
Qed.
(** a line that does not parse *)
Definition bad_line : text := U "a: 1
no <element>".
Lemma bad_line_shown : exists x y, parse_context bad_line en TextReporter None = Raise (ParseError x) /\ parse_context bad_line en HtmlReporter None = Raise (ParseError y) /\ text_report en None [Line 1 Near (U "a: 1"); Line 2 Main (U "no <element>")] (er_snippet x).
Proof.
  eexists _, _. split; [vm_compute; reflexivity|]. split; [vm_compute; reflexivity|]. eexists. split; [|shelve]. repeat constructor.
  Unshelve. vm_compute. reflexivity.
Qed.
