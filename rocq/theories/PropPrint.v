(** PropPrint: PROPERTY C41 (errors can be reported).

    [validation_error c v] makes the error for complaint [v] about the parsed document [c];
    [concerned v] are the elements it is about.  SpecPrint: [reportable h v] says what the elements
    must be like. *)
From Verif Require Import Base Types Messages Analyzer Reporter Errors Context Faults SpecPrint QueryExamples PrintProofs PrintExamples.

(** * C41 *)

(** False as stated, in five ways: a section with an empty element before another element, *)
Theorem C41_gap_refuted : exists inp v, fails_with TextReporter inp v TypeError.
Proof. exact gap_fails. Qed.
Print Assumptions C41_gap_refuted.
(** the comment of an element without comments, *)
Theorem C41_comment_refuted : exists inp v, fails_with TextReporter inp v KeyError /\
  exists m e, v = BadComment m e /\ n_type (hget (c_heap (ctx_with TextReporter inp)) e) = FIELD.
Proof. exact comment_fails. Qed.
Print Assumptions C41_comment_refuted.
(** the key of a list item, *)
Theorem C41_item_refuted : exists inp v, fails_with TextReporter inp v KeyError /\
  exists m e, v = BadKey m e /\ n_type (hget (c_heap (ctx_with TextReporter inp)) e) = LIST_ITEM.
Proof. exact item_fails. Qed.
Print Assumptions C41_item_refuted.
(** the document itself, *)
Theorem C41_document_refuted : exists inp, fails_with TextReporter inp (BadElement [] 0) KeyError.
Proof. exact document_fails. Qed.
Print Assumptions C41_document_refuted.
(** and, with the TerminalReporter, lines of deep copies and all lines that do not parse. *)
Theorem C41_deep_copy_refuted : exists inp v, fails_with TerminalReporter inp v KeyError /\ reportable (c_heap (ctx_with TerminalReporter inp)) v.
Proof. exact deep_fails. Qed.
Print Assumptions C41_deep_copy_refuted.
Theorem C41_terminal_parse_refuted : exists inp, parse_context inp en TerminalReporter None = Raise KeyError /\
  exists x, parse_context inp en TextReporter None = Raise (ParseError x).
Proof. exact line_fails. Qed.
Print Assumptions C41_terminal_parse_refuted.

(** These are all: otherwise, and only otherwise, the error is made. *)
Theorem C41_exactly_partial : forall inp loc rk src c, parse_context inp loc rk src = Ok c -> forall v,
  Forall (fun e => e < length (c_heap c)) (concerned v) -> c_reporter c <> TerminalReporter \/ no_deep_copies (c_heap c) ->
  ((exists x, validation_error c v = Ok x) <-> reportable (c_heap c) v).
Proof. intros inp loc rk src c H v. exact (reportable_ok H v). Qed.
Print Assumptions C41_exactly_partial.
Theorem C41_terminal_partial : forall inp loc rk src c, parse_context inp loc rk src = Ok c -> forall v,
  Forall (fun e => e < length (c_heap c)) (concerned v) -> reportable (c_heap c) v ->
  (exists x, validation_error c v = Ok x) \/ c_reporter c = TerminalReporter /\ validation_error c v = Raise KeyError.
Proof. intros inp loc rk src c H v. exact (reportable_terminal H v). Qed.
Print Assumptions C41_terminal_partial.

Example C41_sample : (forall rk, parse_context p_doc en rk None = Ok (ctx_with rk p_doc)) /\
  (forall rk, Forall (fun v => Forall (fun e => e < length (c_heap (ctx_with rk p_doc))) (concerned v)) p_complaints) /\
  no_deep_copies (c_heap (ctx_with TerminalReporter p_doc)) /\
  map (fun rk => map (fun v => reported (validation_error (ctx_with rk p_doc) v)) p_complaints) [TextReporter; HtmlReporter; TerminalReporter] = repeat (repeat None 10) 3.
Proof. exact (conj p_parsed (conj p_known (conj p_no_deep p_reported))). Qed.
