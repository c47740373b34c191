(** PropLookup: PROPERTIES C36-C39 (lookup by index and by line).

    [lookup_in c column index line] is lookup() after parsing; it gives the instruction of the found
    element (0 is the document) and the name of the found range.
    SpecLookup: [line_at n i rs]: a line of instruction [n] contains position [i] and has the ranges
    [rs].  [true_innermost h i x]: [x] is the latest instruction that has [i] between its first and
    its last line.  [innermost h i x]: the same, if a list or fieldset ends with the first line of its
    last item or entry.  [picked rs i o]: [o] is the last range beginning at [i], or else the first
    one containing it. *)
From Coq Require Import ZArith.
From Verif Require Import Base Types Messages Analyzer Reporter Errors Context SpecText SpecTree Lookup SpecLookup SessionRun PropAnalysisProofs LookupExamples PropLookupProofs.

(** * C36 *)

Theorem C36_index : forall inp loc rk src c, parse_context inp loc rk src = Ok c -> forall i col l,
  (lookup_in c col (Some i) l = Raise LookupIndexError <-> (i < 0 \/ Z.of_nat (length inp) < i)%Z) /\
  ((0 <= i <= Z.of_nat (length inp))%Z -> exists x o, lookup_in c col (Some i) l = Ok (x, o)).
Proof. intros inp loc rk src c H i col l. exact (conj (index_range H i col l) (index_total H i col l)). Qed.
Print Assumptions C36_index.

Theorem C36_line_partial : forall inp loc rk src c, parse_context inp loc rk src = Ok c -> forall l,
  (forall col, lookup_in c col None (Some l) = Raise LookupIndexError <-> (l < 0 \/ Z.of_nat (c_line_count c) <= l)%Z) /\
  ((0 <= l < Z.of_nat (c_line_count c))%Z -> forall col, exists x o, lookup_in c (Some col) None (Some l) = Ok (x, o)).
Proof. intros inp loc rk src c H l. exact (conj (line_range_error H l) (fun Hl col => line_total H l col Hl)). Qed.
Print Assumptions C36_line_partial.

(** What is missing: without a column there is no result if there is anything on the line. *)
Theorem C36_no_column : forall inp loc rk src c, parse_context inp loc rk src = Ok c -> forall l,
  (0 <= l < Z.of_nat (c_line_count c))%Z ->
  lookup_in c None None (Some l) = Raise TypeError \/
  exists x, lookup_in c None None (Some l) = Ok (x, None) /\ forall col, lookup_in c (Some col) None (Some l) = Ok (x, None).
Proof. intros inp loc rk src c H. exact (line_no_column H). Qed.
Print Assumptions C36_no_column.
Theorem C36_no_column_refuted : exists inp, parse_context inp en TextReporter None = Ok (ctx_of inp) /\
  lookup_in (ctx_of inp) None None (Some 0%Z) = Raise TypeError.
Proof. exact column_missing. Qed.
Print Assumptions C36_no_column_refuted.
Example C36_sample : lookup_in (ctx_of l_doc) None (Some 1000%Z) None = Raise LookupIndexError /\ lookup_in (ctx_of l_doc) None (Some (-1)%Z) None = Raise LookupIndexError /\
  lookup_in (ctx_of l_doc) None (Some 22%Z) None = Ok (1, Some R_key) /\ lookup_in (ctx_of l_doc) (Some 0%Z) None (Some 17%Z) = Raise LookupIndexError /\
  lookup_in (ctx_of l_doc) (Some 0%Z) None (Some 16%Z) = Ok (5, None).
Proof. vm_compute. auto. Qed.

(** * C37 *)

(** Lookup by index, for every position. *)
Theorem C37_index_exact : forall inp loc rk src c, parse_context inp loc rk src = Ok c -> forall i col, i <= length inp ->
  exists x o, lookup_in c col (Some (Z.of_nat i)) None = Ok (x, o) /\ innermost (c_heap c) i x /\ range_at (c_heap c) i x o.
Proof. intros inp loc rk src c H. exact (index_ok H). Qed.
Print Assumptions C37_index_exact.

(** Full statement: [true_innermost (c_heap c) i x].  It holds except behind the first line of the
    last item of a list, or the last entry of a fieldset. *)
Theorem C37_innermost_partial : forall inp loc rk src c, parse_context inp loc rk src = Ok c -> forall i col, i <= length inp ->
  (forall e, e < length (c_heap c) -> ~ (stretch (c_heap c) e < i <= text_stretch (c_heap c) e)) ->
  exists x o, lookup_in c col (Some (Z.of_nat i)) None = Ok (x, o) /\ true_innermost (c_heap c) i x /\ range_at (c_heap c) i x o.
Proof. intros inp loc rk src c H. exact (index_true H). Qed.
Print Assumptions C37_innermost_partial.

(** A position on a line of an instruction gives that instruction, with the same exception. *)
Theorem C37_on_a_line_partial : forall inp loc rk src c, parse_context inp loc rk src = Ok c -> forall x i rs col,
  x < length (c_heap c) -> line_at (hget (c_heap c) x) i rs -> i <= length inp ->
  (forall p, n_parent (hget (c_heap c) x) = Some p -> n_type (hget (c_heap c) x) = LIST_ITEM \/ n_type (hget (c_heap c) x) = FIELDSET_ENTRY -> i <= stretch (c_heap c) p) ->
  exists o, lookup_in c col (Some (Z.of_nat i)) None = Ok (x, o) /\ exists rs, line_at (hget (c_heap c) x) i rs /\ picked rs (Z.of_nat i) o.
Proof. intros inp loc rk src c H. exact (index_on_line H). Qed.
Print Assumptions C37_on_a_line_partial.

Theorem C37_last_item_refuted : exists inp i x y o rs, parse_context inp en TextReporter None = Ok (ctx_of inp) /\
  line_at (hget (c_heap (ctx_of inp)) x) i rs /\ true_innermost (c_heap (ctx_of inp)) i x /\
  lookup_in (ctx_of inp) None (Some (Z.of_nat i)) None = Ok (y, o) /\ y <> x.
Proof. exact tail_missed. Qed.
Print Assumptions C37_last_item_refuted.
(** No instruction at the position, and yet not the enclosing section but the list around it. *)
Theorem C37_no_instruction_refuted : exists inp i x o, parse_context inp en TextReporter None = Ok (ctx_of inp) /\
  (forall y rs, y < length (c_heap (ctx_of inp)) -> ~ line_at (hget (c_heap (ctx_of inp)) y) i rs) /\
  lookup_in (ctx_of inp) None (Some (Z.of_nat i)) None = Ok (x, o) /\ n_type (hget (c_heap (ctx_of inp)) x) = LIST.
Proof. exact gap_found. Qed.
Print Assumptions C37_no_instruction_refuted.

(** * C38 *)

(** Full statement: the same element and range.  Missing: documents with an instruction over several
    lines, and the range of a comment at the document. *)
Theorem C38_agree_partial : forall inp loc rk src c, parse_context inp loc rk src = Ok c -> forall l col i,
  (forall x, 0 < x < length (c_heap c) -> single_line inp (line_range (n_ranges (hget (c_heap c) x)))) -> position inp l col i ->
  exists x o o', lookup_in c (Some (Z.of_nat col)) None (Some (Z.of_nat l)) = Ok (x, o) /\
    (forall k, lookup_in c k (Some (Z.of_nat i)) None = Ok (x, o')) /\
    (o = o' \/ o' = None /\ (forall rs, ~ line_at (hget (c_heap c) x) i rs) /\ exists rs, comment_numbered (c_meta c) l rs /\ picked rs (Z.of_nat i) o).
Proof. intros inp loc rk src c H. exact (lines_agree H). Qed.
Print Assumptions C38_agree_partial.
Example C38_sample : (forall x, 0 < x < length (c_heap (ctx_of l_doc)) -> single_line l_doc (line_range (n_ranges (hget (c_heap (ctx_of l_doc)) x)))) /\
  position l_doc 3 2 31 /\ lookup_in (ctx_of l_doc) (Some 2%Z) None (Some 3%Z) = Ok (1, Some R_value) /\ lookup_in (ctx_of l_doc) None (Some 31%Z) None = Ok (1, Some R_value).
Proof. split; [exact l_single|]. split; [exact l_position|]. split; vm_compute; reflexivity. Qed.

Theorem C38_comment_refuted : exists inp l col i x o, parse_context inp en TextReporter None = Ok (ctx_of inp) /\
  (forall y, 0 < y < length (c_heap (ctx_of inp)) -> single_line inp (line_range (n_ranges (hget (c_heap (ctx_of inp)) y)))) /\ position inp l col i /\
  lookup_in (ctx_of inp) (Some (Z.of_nat col)) None (Some (Z.of_nat l)) = Ok (x, Some o) /\
  lookup_in (ctx_of inp) None (Some (Z.of_nat i)) None = Ok (x, None).
Proof. exact comment_by_index. Qed.
Print Assumptions C38_comment_refuted.
Theorem C38_several_lines_refuted : exists inp l col i x y o o', parse_context inp en TextReporter None = Ok (ctx_of inp) /\ position inp l col i /\
  lookup_in (ctx_of inp) (Some (Z.of_nat col)) None (Some (Z.of_nat l)) = Ok (x, o) /\
  lookup_in (ctx_of inp) None (Some (Z.of_nat i)) None = Ok (y, o') /\ x <> y.
Proof. exact crossing_lines. Qed.
Print Assumptions C38_several_lines_refuted.

(** * C39 *)

Theorem C39_index : forall inp loc rk src c, parse_context inp loc rk src = Ok c -> forall i col x nm,
  lookup_in c col (Some i) None = Ok (x, Some nm) ->
  exists rs s, line_at (hget (c_heap c) x) (Z.to_nat i) rs /\ In (nm, s) rs /\ within s i.
Proof. intros inp loc rk src c H. exact (index_within H). Qed.
Print Assumptions C39_index.
Theorem C39_index_and_line : forall inp loc rk src c, parse_context inp loc rk src = Ok c -> forall i l col x nm,
  lookup_in c col (Some i) (Some l) = Ok (x, Some nm) ->
  exists rs s, (line_at (hget (c_heap c) x) (Z.to_nat i) rs \/ exists k, l = Z.of_nat k /\ comment_numbered (c_meta c) k rs) /\ In (nm, s) rs /\ within s i.
Proof. intros inp loc rk src c H. exact (index_line_within H). Qed.
Print Assumptions C39_index_and_line.
(** By line: the index is the begin of the line plus the column. *)
Theorem C39_line : forall inp loc rk src c, parse_context inp loc rk src = Ok c -> forall l col x nm,
  lookup_in c (Some col) None (Some l) = Ok (x, Some nm) ->
  exists k rs s, l = Z.of_nat k /\ line_found (c_heap c) (c_meta c) k x rs /\ In (nm, s) rs /\ within s (Z.of_nat (fst (line_range rs)) + col)%Z.
Proof. intros inp loc rk src c H. exact (line_within H). Qed.
Print Assumptions C39_line.
Example C39_sample : lookup_in (ctx_of l_doc) None (Some 27%Z) None = Ok (1, Some R_value) /\ lookup_in (ctx_of l_doc) (Some 2%Z) None (Some 0%Z) = Ok (0, Some R_comment) /\
  lookup_in (ctx_of l_doc) None (Some 26%Z) None = Ok (1, Some R_element_operator).
Proof. vm_compute. auto. Qed.
