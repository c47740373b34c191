(** PropRemarks: the comments of sections, deep copies included (C49). *)
From Verif Require Import Base Types Messages Analyzer SpecTree SpecResolve SpecLinks Reporter Errors Context SpecInherit PropParseProofs InheritExamples
  SpecMerge SpecRemarks RemarkProofs RemarkExamples.

(** If no section takes over its own elements: a section without a comment of its own has that of a
    section a copy gives it, and of several copies that do so the innermost counts. *)
Theorem C49_every_section : forall inp loc rk src c, parse_context inp loc rk src = Ok c ->
  forall st lc, analyze inp = AOk st lc -> well_founded_copies (a_heap st) ->
  forall i, is_section (hget (a_heap st) i) -> remark (a_heap st) i (n_comments (hget (c_heap c) i)).
Proof. intros inp loc rk src c H. exact (section_remarks H). Qed.
Print Assumptions C49_every_section.

(** [remark] leaves no choice. *)
Theorem C49_one_remark : forall inp loc rk src c, parse_context inp loc rk src = Ok c ->
  forall st lc, analyze inp = AOk st lc ->
  forall i v v', remark (a_heap st) i v -> remark (a_heap st) i v' -> v = v'.
Proof. intros inp loc rk src c H. exact (one_remark H). Qed.
Print Assumptions C49_one_remark.

(** [sub] has the elements of [base.sub], but the comment of [other] *)
Example C49_remark_sample : parses remark_doc = true /\ well_founded_copies (nodes_of remark_doc) /\
  gives (nodes_of remark_doc) 8 3 9 4 /\ gives (nodes_of remark_doc) 9 1 9 1 /\
  (forall l, n_comments (hget (nodes_of remark_doc) 1) = Some l -> remark (nodes_of remark_doc) 9 (Some l)) /\
  map (fun i => match n_comments (hget (parsed_of remark_doc) i) with Some l => map (fun x => l_text x) l | None => [] end) [1; 4; 8; 9; 11] =
    [[Some (U "of other")]; [Some (U "of base.sub")]; []; [Some (U "of other")]; [Some (U "of base.plain")]].
Proof. exact remark_sample. Qed.
