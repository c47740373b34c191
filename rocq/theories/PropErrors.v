(** PropErrors: PROPERTY C40 (selections of errors).

    [validation_error c v] is the error made for complaint [v] about the parsed document [c].
    SpecSelect: [selects P s]: both ends of the selection have [P], and the first is not behind the
    second.  [inside inp]: the cursor is a position of the text, with a column counted from the
    beginning of a line.  [exact inp]: and the number of that line is the one of the cursor. *)
From Verif Require Import Base Types Messages Analyzer Reporter Errors Context Elements Session SpecApi SpecText SpecLookup Lookup SpecSelect Faults SessionRun PropAnalysisProofs QueryExamples LookupExamples PropErrorsProofs ErrorExamples.

(** * C40 *)

Theorem C40_parse : forall inp loc rk src x, parse_context inp loc rk src = Raise (ParseError x) -> selects (inside inp) (er_selection x).
Proof. exact parse_selects. Qed.
Print Assumptions C40_parse.

Theorem C40_complaints : forall inp loc rk src c, parse_context inp loc rk src = Ok c -> forall v x,
  validation_error c v = Ok x -> selects (inside inp) (er_selection x).
Proof. intros inp loc rk src c H. exact (complaint_selects H). Qed.
Print Assumptions C40_complaints.

(** All errors of calls are made for such complaints, *)
Theorem C40_calls : forall inp loc rk src c, parse_context inp loc rk src = Ok c -> forall s k x, reach c s ->
  snd (run_call k s) = Raise (ValidationError x) -> (exists v, validation_error c v = Ok x) /\ selects (inside inp) (er_selection x).
Proof. intros inp loc rk src c H. exact (session_selects H). Qed.
Print Assumptions C40_calls.
(** also those about missing elements, *)
Theorem C40_missing : forall inp loc rk src c, parse_context inp loc rk src = Ok c -> forall s m x, reach c s ->
  snd (missing_error (A := unit) m s) = Raise (ValidationError x) -> (exists v, validation_error c v = Ok x) /\ selects (inside inp) (er_selection x).
Proof. intros inp loc rk src c H. exact (missing_selects H). Qed.
Print Assumptions C40_missing.
(** and those made by error(), comment_error(), key_error() and value_error(). *)
Theorem C40_made : forall inp loc rk src c, parse_context inp loc rk src = Ok c -> forall s o m x, reach c s ->
  In (Ok x) [snd (error_of o m s); snd (comment_error_of o m s); snd (key_error_of o m s); snd (value_error_of o m s)] ->
  (exists v, validation_error c v = Ok x) /\ selects (inside inp) (er_selection x).
Proof. intros inp loc rk src c H. exact (made_selects H). Qed.
Print Assumptions C40_made.

(** The full statement asks for the right line numbers as well.  It fails for instructions that
    contain line feeds, *)
Theorem C40_line_refuted : exists inp v x, parse_context inp en TextReporter None = Ok (ctx_of inp) /\
  validation_error (ctx_of inp) v = Ok x /\ ~ selects (exact inp) (er_selection x).
Proof. exact wrong_line. Qed.
Print Assumptions C40_line_refuted.
(** and holds for all other documents. *)
Theorem C40_exact_parse_partial : forall inp loc rk src x, parse_context inp loc rk src = Raise (ParseError x) ->
  single_lines inp (read_so_far inp) -> selects (exact inp) (er_selection x).
Proof. exact parse_selects_exact. Qed.
Print Assumptions C40_exact_parse_partial.
Theorem C40_exact_partial : forall inp loc rk src c, parse_context inp loc rk src = Ok c -> forall v x,
  validation_error c v = Ok x -> single_lines inp (c_heap c) -> selects (exact inp) (er_selection x).
Proof. intros inp loc rk src c H. exact (complaint_selects_exact H). Qed.
Print Assumptions C40_exact_partial.

Example C40_sample : selection_of (parse_context bad_doc en TextReporter None) = Some (selected 2 0 10 2 3 13) /\ single_lines bad_doc (read_so_far bad_doc) /\
  parse_context l_doc en TextReporter None = Ok (ctx_of l_doc) /\ single_lines l_doc (c_heap (ctx_of l_doc)) /\
  map place [BadElement [] 2; BadKey [] 1; BadValue [] 6; NoValue 3; NoComment 5; NoElement None 0 Q_missing_field; TooMany None [1; 2] Q_expected_single_field] =
    [Some (selected 4 0 33 8 6 54); Some (selected 2 0 20 2 5 25); Some (selected 12 0 78 12 3 81); Some (selected 5 1 40 5 3 42); Some (selected 9 0 55 9 0 55);
     Some (selected 0 0 0 0 0 0); Some (selected 2 0 20 3 3 32)].
Proof. exact (conj bad_error (conj bad_single (conj l_parsed (conj l_single l_places)))). Qed.
(** errors of calls, of missing elements, made ones *)
Example C40_call_sample : let s := session q_doc q_calls in reach (ctx_of q_doc) s /\
  selection_of (snd (run_call (Query (Some KList) 6 (key_named "x") None) s)) = Some (selected 7 0 33 7 4 37) /\
  selection_of (snd (missing_error (A := unit) (Missing MKList (key_named "q") (PObject 6)) s)) = Some (selected 6 7 32 6 7 32) /\
  match snd (error_of 6 [] s) with Ok x => Some (er_selection x) | Raise _ => None end = Some (selected 6 0 25 8 2 40).
Proof. exact q_places. Qed.
