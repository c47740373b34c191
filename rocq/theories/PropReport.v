(** Property theorems about reports (C43, C44).  Specification: [SpecReport]. *)
From Verif Require Import Base Types Messages Reporter Errors Context SpecReport ReportProofs PropReportProofs.

(** * C43 *)

(** False as stated: the two lines after a reported first line are not shown. *)
Theorem C43_context_refuted : exists s, (forall k t, nth_error s k = Some (Some t) -> reported t) /\ (exists k, tagged s k) /\
  ~ exists s', complete (length s) s = Ok s' /\ context_shown (close s) s s'.
Proof. exact context_wrong. Qed.
Print Assumptions C43_context_refuted.

(** With that exception ([close_enough]) it holds for every assignment of tags. *)
Theorem C43_context_partial : forall s, (forall k t, nth_error s k = Some (Some t) -> reported t) -> (exists k, tagged s k) ->
  exists s', complete (length s) s = Ok s' /\ context_shown (close_enough s) s s'.
Proof. exact complete_fin. Qed.
Print Assumptions C43_context_partial.
Example C43_sample :
  complete 12 [None; None; None; None; None; Some EMPHASIZE; None; None; None; None; None; None] =
  Ok [None; None; Some OMISSION; Some DISPLAY; Some DISPLAY; Some EMPHASIZE; Some DISPLAY; Some DISPLAY; None; None; None; Some OMISSION].
Proof. vm_compute. reflexivity. Qed.

(** Without any reported line the whole document is questioned. *)
Theorem C43_nothing_reported : forall s, (forall k, ~ tagged s k) ->
  complete (length s) s = Ok (repeat (Some QUESTION) (length s)).
Proof. exact complete_nothing. Qed.
Print Assumptions C43_nothing_reported.

(** * C44 *)

(** False as stated: the label is put into the report as it is. *)
Theorem C44_label_refuted : exists inp l1 l2 e1 e2,
  parse_context inp en HtmlReporter (Some l1) = Raise (ParseError e1) /\
  parse_context inp en HtmlReporter (Some l2) = Raise (ParseError e2) /\
  l1 <> [] /\ l2 <> [] /\ markup (er_snippet e1) <> markup (er_snippet e2).
Proof. exact label_markup. Qed.
Print Assumptions C44_label_refuted.

(** Apart from the label, the markup of a report depends only on which lines it shows: whatever
    the document contains, no tag, attribute or quote appears or disappears. *)
Theorem C44_document_escaped_partial : forall r1 r2 t1 t2,
  c_reporter (r_ctx r1) = HtmlReporter -> c_reporter (r_ctx r2) = HtmlReporter ->
  c_locale (r_ctx r1) = c_locale (r_ctx r2) -> c_source (r_ctx r1) = c_source (r_ctx r2) ->
  c_line_count (r_ctx r1) = c_line_count (r_ctx r2) -> r_snip r1 = r_snip r2 ->
  snippet r1 = Ok t1 -> snippet r2 = Ok t2 -> markup t1 = markup t2.
Proof. exact html_chars. Qed.
Print Assumptions C44_document_escaped_partial.
Example C44_sample : exists e1 e2,
  parse_context (U "- x") en HtmlReporter None = Raise (ParseError e1) /\
  parse_context (U "- <script>alert('x')</script>") en HtmlReporter None = Raise (ParseError e2) /\
  er_snippet e1 <> er_snippet e2 /\ markup (er_snippet e1) = markup (er_snippet e2) /\ markup (er_snippet e1) <> [].
Proof. eexists. eexists. split; [vm_compute; reflexivity|]. split; [vm_compute; reflexivity|]. vm_compute. repeat split; discriminate. Qed.

(** Nothing of the line is lost. *)
Theorem C44_escape_lossless : forall s fuel, length s <= fuel -> inert (escape s) /\ unescape fuel (escape s) = s.
Proof. intros s fuel H. exact (conj (escape_inert s) (unescape_escape s fuel H)). Qed.
Print Assumptions C44_escape_lossless.
