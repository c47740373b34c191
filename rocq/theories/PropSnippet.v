(** PropSnippet: PROPERTY C42 (snippets show the source lines).

    SpecSnippet: [is_line inp k t] says that [t] is line [k] of the text, [text_snippet],
    [html_snippet] and [terminal_snippet] describe the form of snippets: rows in ascending order, each with a line number
    and what stands for the line with that number, or an omission mark. *)
From Verif Require Import Base Types Messages Analyzer Reporter Errors Context Elements Session SpecApi SpecText SpecLookup Faults SpecReport SpecSnippet SessionRun QueryExamples LookupExamples
  SpecSelect SpecNumber NumberProofs PropErrorsProofs ErrorExamples SnippetFault SnippetExamples.

(** * C42 *)

(** False as stated, in three ways: comments directly before a line that cannot be placed are not
    shown, *)
Theorem C42_comment_refuted : exists inp x r1 r2, parse_context inp en TextReporter None = Raise (ParseError x) /\
  er_snippet x = text_top en None ++ join [nl] [r1; r2] /\ text_row en 1 [] r1 /\ text_row en 2 (U "- item") r2 /\ is_line inp 0 (U "> remark") /\ is_line inp 1 (U "- item").
Proof. exact comment_lost. Qed.
Print Assumptions C42_comment_refuted.
(** elements may extend over several lines and the numbers behind them are then wrong, *)
Theorem C42_number_refuted : exists inp c v x r1 r2, parse_context inp en TextReporter None = Ok c /\ validation_error c v = Ok x /\
  er_snippet x = text_top en None ++ join [nl] [r1; r2] /\ text_row en 2 (U "b: w") r2 /\ is_line inp 1 (U ": v").
Proof. exact line_misplaced. Qed.
Print Assumptions C42_number_refuted.
(** and a line may be shown that does not exist. *)
Theorem C42_past_refuted : exists inp x r1 r2, parse_context inp en TextReporter None = Raise (ParseError x) /\
  er_snippet x = text_top en None ++ join [nl] [r1; r2] /\ text_row en 2 [] r2 /\ forall t, ~ is_line inp 1 t.
Proof. exact line_invented. Qed.
Print Assumptions C42_past_refuted.

(** These are all.  About documents that parse, without instructions over
    several lines: each row shows its line, or nothing where the line is blank. *)
Theorem C42_complaint_partial : forall inp loc rk src c, parse_context inp loc rk src = Ok c -> forall v x,
  validation_error c v = Ok x -> single_lines inp (c_heap c) ->
  (rk = TextReporter -> text_snippet loc src (stands_for blank_text inp) (er_snippet x)) /\
  (rk = HtmlReporter -> html_snippet loc src (stands_for blank_text inp) (er_snippet x)) /\
  (rk = TerminalReporter -> terminal_snippet src (stands_for blank_text inp) (er_snippet x)).
Proof. intros inp loc rk src c H. exact (complaint_shows H). Qed.
Print Assumptions C42_complaint_partial.
(** Likewise errors raised by calls. *)
Theorem C42_call_partial : forall inp loc rk src c, parse_context inp loc rk src = Ok c -> forall s k x, reach c s ->
  snd (run_call k s) = Raise (ValidationError x) -> single_lines inp (c_heap c) ->
  (rk = TextReporter -> text_snippet loc src (stands_for blank_text inp) (er_snippet x)) /\
  (rk = HtmlReporter -> html_snippet loc src (stands_for blank_text inp) (er_snippet x)) /\
  (rk = TerminalReporter -> terminal_snippet src (stands_for blank_text inp) (er_snippet x)).
Proof. intros inp loc rk src c H. exact (call_shows H). Qed.
Print Assumptions C42_call_partial.
(** Texts that do not parse: each row shows its line, or nothing where the line is blank or a
    comment; an empty row may follow the last line. *)
Theorem C42_parse_partial : forall inp loc rk src x, parse_context inp loc rk src = Raise (ParseError x) -> single_lines inp (read_so_far inp) ->
  (rk = TextReporter -> text_snippet loc src (stands_or_past lost_line inp) (er_snippet x)) /\
  (rk = HtmlReporter -> html_snippet loc src (stands_or_past lost_line inp) (er_snippet x)) /\
  (rk = TerminalReporter -> terminal_snippet src (stands_or_past lost_line inp) (er_snippet x)).
Proof. exact parse_shows. Qed.
Print Assumptions C42_parse_partial.

(** The numbers in the rows, [dec n], are decimal numbers. *)
Theorem C42_numbers : forall n t, t = dec n <-> decimal n t.
Proof. exact dec_exactly. Qed.
Print Assumptions C42_numbers.

Example C42_sample : parse_context l_doc en TextReporter None = Ok (ctx_of l_doc) /\ single_lines l_doc (c_heap (ctx_of l_doc)) /\
  made (validation_error (ctx_of l_doc) (BadKey [] 1)) = U "   Line | Content
      1 | > for the document
      2 | 
 >    3 | title: x
      4 | | y
      5 | list:
   ...".
Proof. exact (conj l_parsed (conj l_single l_snippet)). Qed.
Example C42_parse_sample : single_lines bad_doc (read_so_far bad_doc) /\ snippet_of (parse_context bad_doc en TextReporter None) = U "   Line | Content
      1 | a: b
      2 | c: d
 >    3 | - x".
Proof. exact (conj bad_single bad_snippet). Qed.
Example C42_terminal_sample : single_lines terminal_doc (c_heap (ctx_of terminal_doc)) /\
  match parse_context terminal_doc en TerminalReporter (Some (U "file")) with
  | Ok c => made (validation_error c (BadKey [] 1))
  | Raise _ => []
  end = style 30 ++ in_style 101 (U " >      ") ++ U " " ++ in_style 1 (U "file") ++ [nl] ++ join [nl] [
    in_style 40 (U "      1 ") ++ U " " ++ in_style 90 (U "> note");
    style 30 ++ in_style 101 (U " >    2 ") ++ U " " ++ style 1 ++ in_style 97 (U "key") ++ in_style 37 (U ":") ++ U " " ++ style 2 ++ in_style 37 (U "value");
    in_style 40 (U "      3 ") ++ U " " ++ style 1 ++ in_style 97 (U "list") ++ in_style 37 (U ":");
    in_style 40 (U "      4 ") ++ U " " ++ in_style 37 (U "-") ++ U " " ++ style 2 ++ in_style 37 (U "item")].
Proof. exact (conj terminal_single terminal_row_example). Qed.
