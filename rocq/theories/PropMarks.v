(** PropMarks: PROPERTY C55 (what error reports show and mark).

    SpecMarks: [complaint_marks h v j m] says that a complaint [v] about document [h] marks line [j]
    (counted from 0) with [m]; [fault_marks h lc p j m] says so of error [p] in a text of [lc] lines;
    [laid_out lc mk content rows] says that [rows] are the lines marked by [mk], the lines near them,
    and [Dots] for what is left out; [or_all mk] marks every line if [mk] marks none; [content c j t]
    says that [t] is line [j] as recorded in [c]; [drawn rk loc src rows t] says that text [t] shows
    the [rows] as reporter [rk] does.  [fault] (ParseOutcome) says which error stopped the parser. *)
From Verif Require Import Base Types Messages Analyzer Reporter Errors Context Faults SpecDraw SpecMarks ParseOutcome QueryExamples PrintExamples MarkProofs FaultMarks MarkSingle MarkExamples.

(** * C55 *)

Theorem C55_complaints : forall inp loc rk src c, parse_context inp loc rk src = Ok c -> forall v x, validation_error c v = Ok x ->
  exists rows, laid_out (c_line_count c) (or_all (complaint_marks (c_heap c) v)) (content c) rows /\ drawn rk loc src rows (er_snippet x).
Proof. intros inp loc rk src c HP. exact (complaint_marked HP). Qed.
Print Assumptions C55_complaints.
Example C55_sample : parse_context mark_doc en TextReporter None = Ok mark_ctx /\ snippet_is (NoElement None 1 Q_missing_field) missing_rows /\ snippet_is (BadElement [] 3) bad_rows /\
  complaint_marks (c_heap mark_ctx) (NoElement None 1 Q_missing_field) 6 Asked /\ complaint_marks (c_heap mark_ctx) (NoElement None 1 Q_missing_field) 8 Part.
Proof. exact (conj mark_parsed (conj missing_drawn (conj bad_drawn missing_asked))). Qed.

(** No line has two marks. *)
Theorem C55_one_mark : forall inp loc rk src c, parse_context inp loc rk src = Ok c -> forall v x, validation_error c v = Ok x ->
  forall j m n, complaint_marks (c_heap c) v j m -> complaint_marks (c_heap c) v j n -> m = n.
Proof. intros inp loc rk src c HP v x H j m n. exact (complaint_single HP v x j m n H). Qed.
Print Assumptions C55_one_mark.

Theorem C55_parse_errors : forall inp loc rk src x, parse_context inp loc rk src = Raise (ParseError x) ->
  exists p h meta lc rows, fault inp p h meta lc /\
    laid_out lc (or_all (fault_marks h lc p)) (content (MkCtx inp loc rk src h meta lc)) rows /\ drawn rk loc src rows (er_snippet x).
Proof. exact parse_marked. Qed.
Print Assumptions C55_parse_errors.
Theorem C55_one_fault_mark : forall h lc p j m n, fault_marks h lc p j m -> fault_marks h lc p j n -> m = n.
Proof. exact fault_single. Qed.
Print Assumptions C55_one_fault_mark.
Example C55_parse_sample : (exists h meta, fault open_doc (PUnterminatedMultiline 4) h meta 9 /\ n_line (hget h 4) = 5) /\
  exists x, parse_context open_doc en TextReporter None = Raise (ParseError x) /\ text_report en None open_rows (er_snippet x).
Proof. exact (conj open_fault open_drawn). Qed.
