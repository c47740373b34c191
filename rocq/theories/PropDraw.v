(** PropDraw: PROPERTY C54 (all reporters show the same).

    [validation_error c v] makes the error for complaint [v] about the parsed document [c].
    SpecDraw: [text_report loc src rows t] says that text [t] shows the [rows], which are lines of
    the document (number, mark, content) or marks of omission, as plain text; [html_report] and
    [terminal_report] say the same of the other two forms; [shows_line n rows] says that line [n]
    is among them; [copies_deeply h e] says that [e] is a deep copy of a section. *)
From Verif Require Import Base Types Messages Analyzer Reporter Errors Context Faults SpecDraw QueryExamples PrintExamples DrawDoc DrawExamples.

(** * C54 *)

(** The reporter makes no difference to what is accepted. *)
Theorem C54_documents : forall inp loc src rk rk' c, parse_context inp loc rk src = Ok c -> exists c', parse_context inp loc rk' src = Ok c' /\ c_heap c' = c_heap c.
Proof. exact same_documents. Qed.
Print Assumptions C54_documents.

(** An error has the same message, selection and rows in each form; the terminal form exists
    unless a deep copy is among the rows. *)
Theorem C54_rows : forall inp loc src ct ch cm, parse_context inp loc TextReporter src = Ok ct -> parse_context inp loc HtmlReporter src = Ok ch ->
  parse_context inp loc TerminalReporter src = Ok cm -> forall v x, validation_error ct v = Ok x -> exists rows, text_report loc src rows (er_snippet x) /\
  (exists y, validation_error ch v = Ok y /\ er_text y = er_text x /\ er_selection y = er_selection x /\ html_report loc src rows (er_snippet y)) /\
  ((forall e, copies_deeply (c_heap cm) e -> ~ shows_line (n_line (hget (c_heap cm) e) + 1) rows) ->
    exists z, validation_error cm v = Ok z /\ er_text z = er_text x /\ er_selection z = er_selection x /\ terminal_report src rows (er_snippet z)) /\
  ((exists e, copies_deeply (c_heap cm) e /\ shows_line (n_line (hget (c_heap cm) e) + 1) rows) -> validation_error cm v = Raise KeyError).
Proof. exact same_complaints. Qed.
Print Assumptions C54_rows.
(** Where there is no error text, there is none in the other forms. *)
Theorem C54_failures : forall inp loc src ct ch cm, parse_context inp loc TextReporter src = Ok ct -> parse_context inp loc HtmlReporter src = Ok ch ->
  parse_context inp loc TerminalReporter src = Ok cm -> forall v,
  (forall e, validation_error ct v = Raise e <-> validation_error ch v = Raise e) /\
  (forall e, validation_error ct v = Raise e -> exists e', validation_error cm v = Raise e').
Proof. exact same_failures. Qed.
Print Assumptions C54_failures.
Example C54_sample : (forall rk, parse_context draw_doc en rk None = Ok (ctx_with rk draw_doc)) /\
  (exists t, snippet_of TextReporter (BadKey [] 3) = Some t /\ text_report en None draw_rows t) /\
  (copies_deeply (c_heap (ctx_with TerminalReporter draw_doc)) 6 /\ ~ shows_line (n_line (hget (c_heap (ctx_with TerminalReporter draw_doc)) 6) + 1) draw_rows) /\
  (exists t, snippet_of TerminalReporter (BadKey [] 3) = Some t) /\ (exists t, snippet_of TextReporter (BadKey [] 5) = Some t) /\
  validation_error (ctx_with TerminalReporter draw_doc) (BadKey [] 5) = Raise KeyError.
Proof. exact (conj draw_parsed (conj draw_text (conj draw_copy draw_terminal))). Qed.

(** The same for errors of the document itself, which the terminal mostly cannot show (C41). *)
Theorem C54_parse_errors : forall inp loc src x, parse_context inp loc TextReporter src = Raise (ParseError x) -> exists rows, text_report loc src rows (er_snippet x) /\
  (exists y, parse_context inp loc HtmlReporter src = Raise (ParseError y) /\ er_text y = er_text x /\ er_selection y = er_selection x /\ html_report loc src rows (er_snippet y)) /\
  ((exists z, parse_context inp loc TerminalReporter src = Raise (ParseError z) /\ er_text z = er_text x /\ er_selection z = er_selection x /\ terminal_report src rows (er_snippet z)) \/
   parse_context inp loc TerminalReporter src = Raise KeyError).
Proof. exact parse_drawn. Qed.
Print Assumptions C54_parse_errors.
Example C54_parse_sample : exists x y, parse_context bad_line en TextReporter None = Raise (ParseError x) /\ parse_context bad_line en HtmlReporter None = Raise (ParseError y) /\
  text_report en None [Line 1 Near (U "a: 1"); Line 2 Main (U "no <element>")] (er_snippet x).
Proof. exact bad_line_shown. Qed.
