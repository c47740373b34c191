(** Property theorems about parsing as a whole (C01, C02, C19-C21, C45).  Specifications:
    [SpecResolve], [SpecErrors], [SpecRun].  [parse_context inp loc rk src] is
    [enolib.parse(inp, locale=loc, reporter=rk, source=src)] up to the document object. *)
From Coq Require Import Relations.
From Verif Require Import Base Types Messages Analyzer SpecRun SpecText SpecResolve SpecErrors Reporter Errors Context ParseOutcome PropParseProofs.

(** * C01 *)

(** Neither the line loop nor the resolution of copies nor the construction of an error report
    runs out of fuel; the loop's fuel is the number of characters. *)
Theorem C01_parse_terminates : forall inp loc rk src, parse_context inp loc rk src <> Raise Fuel.
Proof. exact terminates. Qed.
Print Assumptions C01_parse_terminates.

Theorem C01_loop_advances : forall inp st st', reach inp st -> a_index st < length inp ->
  step inp st = SOk st' -> a_index st < a_index st' <= S (length inp).
Proof. exact loop_advances. Qed.
Print Assumptions C01_loop_advances.

Example C01_copies_of_each_other : exists x,
  parse_context (U "a < b
b < c
c < a
# s < t
# t
## s") en TextReporter None = Raise (ParseError x).
Proof. eexists. vm_compute. reflexivity. Qed.

(** * C02 *)

(** False as stated: a copy of a copy of something missing is a KeyError, ... *)
Theorem C02_missing_chain_refuted : exists inp, parse_context inp en TextReporter None = Raise KeyError.
Proof. exists (U "a < b
b < c"). vm_compute. reflexivity. Qed.
Print Assumptions C02_missing_chain_refuted.

(** ... and a cycle through sections that are no copies themselves an UnboundLocalError. *)
Theorem C02_section_cycle_refuted : exists inp, parse_context inp en TextReporter None = Raise UnboundLocalError.
Proof. exists (U "# q < x
# p
## x
### c < p"). vm_compute. reflexivity. Qed.
Print Assumptions C02_section_cycle_refuted.

(** Nothing else: without these two situations only ParseErrors are raised.  (Every reporter but
    the TerminalReporter, which fails on its own account, see C41.) *)
Theorem C02_only_parse_errors_partial : forall inp loc rk src, rk <> TerminalReporter ->
  (forall st lc, analyze inp = AOk st lc ->
     (forall sec, ~ leads_to_dangling sec (a_heap st)) /\
     forall i, on_cycle true (a_heap st) i -> n_template (hget (a_heap st) i) <> None) ->
  (exists c, parse_context inp loc rk src = Ok c) \/
  (exists x, parse_context inp loc rk src = Raise (ParseError x)).
Proof. exact only_parse_errors. Qed.
Print Assumptions C02_only_parse_errors_partial.

(** In particular no input that fails in the analysis raises anything but a ParseError. *)
Theorem C02_line_errors : forall inp loc rk src e st lc, rk <> TerminalReporter ->
  analyze inp = AErr e st lc -> exists x, parse_context inp loc rk src = Raise (ParseError x).
Proof. exact line_errors. Qed.
Print Assumptions C02_line_errors.

(** * C19 *)

(** When parsing succeeds every copy has exactly one template; C22-C25 say what it gets from it. *)
Theorem C19_copies_found : forall inp loc rk src c, parse_context inp loc rk src = Ok c ->
  exists st lc, analyze inp = AOk st lc /\
    forall sec i k, copies sec (a_heap st) i k ->
      exists t, candidate sec (a_heap st) k t /\ forall t', candidate sec (a_heap st) k t' -> t' = t.
Proof. exact copies_found. Qed.
Print Assumptions C19_copies_found.

(** Two candidates anywhere in the document: the ambiguity error, naming such a copy. *)
Theorem C19_ambiguity_reported : forall inp loc rk src, rk <> TerminalReporter ->
  forall st lc, analyze inp = AOk st lc ->
  (exists c f e, ambiguous (a_heap st) c f e) ->
  exists x c f e k, parse_context inp loc rk src = Raise (ParseError x) /\ ambiguous (a_heap st) c f e /\
    n_template (hget (a_heap st) c) = Some k /\ er_text x = lc_two_or_more_templates_found loc k /\
    er_selection x = line_of_node (hget (a_heap st) c).
Proof. exact ambiguity_reported. Qed.
Print Assumptions C19_ambiguity_reported.

Example C19_same_name_elsewhere : exists c f e, ambiguous (nodes_of (U "a: 1
# s
## t
a: 2
# u
b < a")) c f e.
Proof.
  exists 6, 1, 4, false, (U "a"). unfold copies, candidate. vm_compute. repeat split; try lia; discriminate.
Qed.
(** a section of that name is no candidate for an element copy, nor is a copy of its own name *)
Example C19_others_do_not_count :
  match parse_context (U "# s
a < a
# a
x: 1
# t
a: 2") en TextReporter None with Ok c => map n_mirror (c_heap c) | Raise _ => [] end =
  [None; None; Some 6; None; None; None; None].
Proof. vm_compute. reflexivity. Qed.

(** * C20 *)

(** False as stated: see [C02_missing_chain_refuted]; the copy of [c] there has no template. *)
Theorem C20_not_reported_refuted : exists inp st lc i, analyze inp = AOk st lc /\ dangling false (a_heap st) i /\
  parse_context inp en TextReporter None = Raise KeyError.
Proof. exact dangling_not_reported. Qed.
Print Assumptions C20_not_reported_refuted.

(** A document with such a copy never parses, ... *)
Theorem C20_never_accepted : forall inp loc rk src st lc, analyze inp = AOk st lc ->
  forall c, (exists sec i, on_cycle sec (a_heap st) i \/ dangling sec (a_heap st) i) -> parse_context inp loc rk src <> Ok c.
Proof. exact faults_fail. Qed.
Print Assumptions C20_never_accepted.

(** ... and unless it has other faults, or copies of such copies, the not-found error is raised
    for one of them. *)
Theorem C20_unknown_template_partial : forall inp loc rk src, rk <> TerminalReporter ->
  forall st lc, analyze inp = AOk st lc ->
  (exists sec i, dangling sec (a_heap st) i) ->
  (forall c f e, ~ ambiguous (a_heap st) c f e) -> (forall sec i, ~ on_cycle sec (a_heap st) i) ->
  (forall sec, ~ leads_to_dangling sec (a_heap st)) ->
  (forall i, ~ stray_entry (a_heap st) i /\ ~ stray_item (a_heap st) i) ->
  exists x sec i k, parse_context inp loc rk src = Raise (ParseError x) /\ dangling sec (a_heap st) i /\
    n_template (hget (a_heap st) i) = Some k /\
    er_text x = (if sec then lc_section_not_found loc else lc_non_section_element_not_found loc)
                  (S (n_line (hget (a_heap st) i))) k /\
    er_selection x = line_of_node (hget (a_heap st) i).
Proof. exact not_found_reported. Qed.
Print Assumptions C20_unknown_template_partial.

(** [c20_doc] is ["x: 1\na < b"] *)
Example C20_hypotheses :
  (exists sec i, dangling sec (nodes_of c20_doc) i) /\
  (forall c f e, ~ ambiguous (nodes_of c20_doc) c f e) /\ (forall sec i, ~ on_cycle sec (nodes_of c20_doc) i) /\
  (forall sec, ~ leads_to_dangling sec (nodes_of c20_doc)) /\
  (forall i, ~ stray_entry (nodes_of c20_doc) i /\ ~ stray_item (nodes_of c20_doc) i).
Proof. exact c20_hypotheses. Qed.

(** * C21 *)

(** False as stated: a cycle of sections may end in an UnboundLocalError. *)
Theorem C21_not_reported_refuted : exists inp st lc i, analyze inp = AOk st lc /\ on_cycle true (a_heap st) i /\
  parse_context inp en TextReporter None = Raise UnboundLocalError.
Proof. exact cycle_not_reported. Qed.
Print Assumptions C21_not_reported_refuted.

(** Cycles never parse ([C20_never_accepted], [C01_parse_terminates]) and are reported if the
    sections on them are all copies and there are no other faults. *)
Theorem C21_cycle_reported_partial : forall inp loc rk src, rk <> TerminalReporter ->
  forall st lc, analyze inp = AOk st lc ->
  (exists sec i, on_cycle sec (a_heap st) i) ->
  (forall c f e, ~ ambiguous (a_heap st) c f e) -> (forall sec i, ~ dangling sec (a_heap st) i) ->
  (forall i, ~ stray_entry (a_heap st) i /\ ~ stray_item (a_heap st) i) ->
  (forall i, on_cycle true (a_heap st) i -> n_template (hget (a_heap st) i) <> None) ->
  exists x sec i k r, parse_context inp loc rk src = Raise (ParseError x) /\ on_cycle sec (a_heap st) i /\
    n_template (hget (a_heap st) i) = Some k /\
    er_text x = lc_cyclic_dependency loc (S (n_line (hget (a_heap st) i))) k /\
    rget (n_ranges (hget (a_heap st) i)) R_template = Some r /\
    er_selection x = MkSel (node_cursor (hget (a_heap st) i) (fst r)) (node_cursor (hget (a_heap st) i) (snd r)).
Proof. exact cycle_reported. Qed.
Print Assumptions C21_cycle_reported_partial.

(** [c21_doc] is ["a < b\nb < c\nc < a\nx:\n- item"] *)
Example C21_hypotheses :
  (exists sec i, on_cycle sec (nodes_of c21_doc) i) /\
  (forall c f e, ~ ambiguous (nodes_of c21_doc) c f e) /\ (forall sec i, ~ dangling sec (nodes_of c21_doc) i) /\
  (forall i, ~ stray_entry (nodes_of c21_doc) i /\ ~ stray_item (nodes_of c21_doc) i) /\
  (forall i, on_cycle true (nodes_of c21_doc) i -> n_template (hget (nodes_of c21_doc) i) <> None).
Proof. exact c21_hypotheses. Qed.

(** Errors about copies are never raised otherwise. *)
Theorem C21_copy_errors_real : forall inp st lc, analyze inp = AOk st lc ->
  forall p h meta lc', fault inp p h meta lc' ->
  match p with
  | PCyclic e _ => exists sec, on_cycle sec (a_heap st) e
  | PTwoTemplates c f e => ambiguous (a_heap st) c f e
  | PNonSectionNotFound c => dangling false (a_heap st) c
  | PSectionNotFound c => dangling true (a_heap st) c
  | PMissingFieldsetForEntryNode x => stray_entry (a_heap st) x
  | PMissingListForItemNode x => stray_item (a_heap st) x
  | _ => False
  end.
Proof. intro inp. exact (copy_faults_real inp en TextReporter None). Qed.
Print Assumptions C21_copy_errors_real.

(** * C45 *)

(** With another locale and source label parsing has the same outcome: the same document, or an
    error for the same fault with the same selection, or the same other exception. *)
Theorem C45_labels_do_not_matter : forall inp loc loc' rk src src',
  match parse_context inp loc rk src, parse_context inp loc' rk src' with
  | Ok c, Ok c' => c' = MkCtx (c_input c) loc' (c_reporter c) src' (c_heap c) (c_meta c) (c_line_count c)
  | Raise (ParseError x), Raise (ParseError y) => er_selection x = er_selection y /\
      exists p h meta lc, fault inp p h meta lc /\ parse_error (MkCtx inp loc rk src h meta lc) p = Ok x /\
        parse_error (MkCtx inp loc' rk src' h meta lc) p = Ok y
  | Raise e, Raise f => e = f
  | _, _ => False
  end.
Proof. exact labels_do_not_matter. Qed.
Print Assumptions C45_labels_do_not_matter.

Example C45_german : exists x y,
  parse_context (U "a: 1
- b") en TextReporter None = Raise (ParseError x) /\
  parse_context (U "a: 1
- b") de TextReporter (Some (U "doc.eno")) = Raise (ParseError y) /\
  er_text x <> er_text y /\ er_snippet x <> er_snippet y /\ er_selection x = er_selection y.
Proof. eexists. eexists. vm_compute. repeat split; discriminate. Qed.
