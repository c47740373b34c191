(** PropInherit: what copies are (C48) and which comments they have (C49).  Specifications: [means],
    [stray_entry], [stray_item] in SpecResolve, [commented] in SpecInherit, [draws_on] in SpecLinks.
    [a_heap st] are the instructions as they stand in the document, [c_heap c] those after parsing. *)
From Coq Require Import Relations.
From Verif Require Import Base Types Messages Analyzer Resolver SpecTree SpecResolve SpecLinks Reporter Errors Context SpecErrors SpecInherit
  PropParseProofs InheritProofs InheritExamples.

(** * C48 *)

(** Elements are what they mean; sections, items and entries stay what they are. *)
Theorem C48_types : forall inp loc rk src c, parse_context inp loc rk src = Ok c ->
  forall st lc, analyze inp = AOk st lc ->
  (forall i, i < length (a_heap st) -> is_element (hget (a_heap st) i) -> means (a_heap st) i (n_type (hget (c_heap c) i))) /\
  (forall i, ~ is_element (hget (a_heap st) i) -> n_type (hget (c_heap c) i) = n_type (hget (a_heap st) i)).
Proof. intros inp loc rk src c H. exact (copies_are H). Qed.
Print Assumptions C48_types.

(** [means] leaves no choice. *)
Theorem C48_one_meaning : forall h i ty ty', means h i ty -> means h i ty' -> ty = ty'.
Proof. exact means_fun. Qed.
Print Assumptions C48_one_meaning.

(** A copy is what its template is, with or without content of its own, unless the template is
    empty. *)
Theorem C48_copies_agree : forall inp loc rk src c, parse_context inp loc rk src = Ok c ->
  forall st lc, analyze inp = AOk st lc ->
  forall i t, template_is false (a_heap st) i t ->
  n_type (hget (c_heap c) t) = EMPTY_ELEMENT \/
  n_type (hget (c_heap c) i) = match n_type (hget (c_heap c) t) with MULTILINE_FIELD_BEGIN => FIELD | ty => ty end.
Proof. intros inp loc rk src c H. exact (copies_agree H). Qed.
Print Assumptions C48_copies_agree.

(** Types before and after parsing in [kinds_doc]. *)
Example C48_kinds : parses kinds_doc = true /\
  template_is false (nodes_of kinds_doc) 3 1 /\ template_is false (nodes_of kinds_doc) 4 3 /\ template_is false (nodes_of kinds_doc) 8 7 /\
  map (fun i => n_type (hget (nodes_of kinds_doc) i)) [1; 3; 4; 6; 7; 8; 9; 10] =
    [LIST; EMPTY_ELEMENT; LIST; MULTILINE_FIELD_BEGIN; EMPTY_ELEMENT; EMPTY_ELEMENT; EMPTY_ELEMENT; FIELDSET] /\
  map (fun i => n_type (hget (parsed_of kinds_doc) i)) [1; 3; 4; 6; 7; 8; 9; 10] =
    [LIST; LIST; LIST; MULTILINE_FIELD_BEGIN; FIELD; FIELD; EMPTY_ELEMENT; FIELDSET].
Proof. exact kinds_meant. Qed.

(** Entries added to a copy of a field or list, or items to a copy of a field or fieldset, are
    never accepted, ... *)
Theorem C48_strays_fail : forall inp loc rk src c, parse_context inp loc rk src = Ok c ->
  forall st lc x, analyze inp = AOk st lc -> ~ (stray_entry (a_heap st) x \/ stray_item (a_heap st) x).
Proof. intros inp loc rk src c H. exact (stray_fails H). Qed.
Print Assumptions C48_strays_fail.

(** ... and one of them is reported if nothing else is wrong with the copies. *)
Theorem C48_strays_reported : forall inp loc rk src, rk <> TerminalReporter ->
  forall st lc, analyze inp = AOk st lc ->
  (exists x, stray_entry (a_heap st) x \/ stray_item (a_heap st) x) ->
  (forall c f e, ~ ambiguous (a_heap st) c f e) -> (forall sec i, ~ dangling sec (a_heap st) i) -> (forall sec i, ~ on_cycle sec (a_heap st) i) ->
  exists x i, parse_context inp loc rk src = Raise (ParseError x) /\
    (stray_entry (a_heap st) i /\ er_text x = lc_missing_fieldset_for_fieldset_entry loc (S (n_line (hget (a_heap st) i))) \/
     stray_item (a_heap st) i /\ er_text x = lc_missing_list_for_list_item loc (S (n_line (hget (a_heap st) i)))) /\
    er_selection x = line_of_node (hget (a_heap st) i).
Proof. exact stray_reported. Qed.
Print Assumptions C48_strays_reported.

(** [stray_doc] adds entries to a copy of a list *)
Example C48_stray_hypotheses :
  (exists x, stray_entry (nodes_of stray_doc) x \/ stray_item (nodes_of stray_doc) x) /\
  (forall c f e, ~ ambiguous (nodes_of stray_doc) c f e) /\ (forall sec i, ~ dangling sec (nodes_of stray_doc) i) /\
  (forall sec i, ~ on_cycle sec (nodes_of stray_doc) i).
Proof. exact stray_hypotheses. Qed.

(** * C49 *)

(** Comments of elements; of sections that no deep copy is around; own comments are always kept;
    items and entries have no others.  See [C35_comment] for what is read from them. *)
Theorem C49_comments : forall inp loc rk src c, parse_context inp loc rk src = Ok c ->
  forall st lc, analyze inp = AOk st lc ->
  (forall i, i < length (a_heap st) -> is_element (hget (a_heap st) i) -> commented false (a_heap st) i (n_comments (hget (c_heap c) i))) /\
  (forall i, is_section (hget (a_heap st) i) -> outside_deep (a_heap st) i -> commented true (a_heap st) i (n_comments (hget (c_heap c) i))) /\
  (forall i, n_comments (hget (a_heap st) i) <> None -> n_comments (hget (c_heap c) i) = n_comments (hget (a_heap st) i)) /\
  (forall i, ~ is_element (hget (a_heap st) i) -> ~ is_section (hget (a_heap st) i) -> n_comments (hget (c_heap c) i) = n_comments (hget (a_heap st) i)).
Proof. intros inp loc rk src c H. exact (comments_copied H). Qed.
Print Assumptions C49_comments.

(** [commented] leaves no choice. *)
Theorem C49_one_comment : forall sec h i v v', commented sec h i v -> commented sec h i v' -> v = v'.
Proof. exact commented_fun. Qed.
Print Assumptions C49_one_comment.

(** Inside deep copies: a section's comment is its own or that of a section it copies or is merged
    with.  [C49_every_section] says which of them. *)
Theorem C49_section_sources : forall inp loc rk src c, parse_context inp loc rk src = Ok c ->
  forall st lc, analyze inp = AOk st lc ->
  forall i l, i < length (a_heap st) -> is_section (hget (a_heap st) i) -> n_comments (hget (c_heap c) i) = Some l ->
  exists k, (k = i \/ clos_trans nat (draws_on (a_heap st)) i k) /\ is_section (hget (a_heap st) k) /\ n_comments (hget (a_heap st) k) = Some l.
Proof. intros inp loc rk src c H. exact (section_comments_from H). Qed.
Print Assumptions C49_section_sources.

(** Comments in [kinds_doc], [sections_doc] (copies of copies) and [merge_doc] (in a deep copy). *)
Example C49_elements :
  map (fun i => match n_comments (hget (parsed_of kinds_doc) i) with Some l => map (fun x => l_text x) l | None => [] end) [1; 3; 4; 9; 10] =
    [[Some (U "of the list")]; [Some (U "of the list")]; [Some (U "of n")]; [Some (U "of e")]; [Some (U "of e")]].
Proof. exact kinds_commented. Qed.
Example C49_sections : parses sections_doc = true /\ outside_deep (nodes_of sections_doc) 5 /\ outside_deep (nodes_of sections_doc) 6 /\
  map (fun i => match n_comments (hget (parsed_of sections_doc) i) with Some l => map (fun x => l_text x) l | None => [] end) [1; 3; 5; 6] =
    [[Some (U "about s")]; [Some (U "about s")]; [Some (U "about w")]; [Some (U "about s")]].
Proof. exact sections_commented. Qed.
Example C49_merged : parses merge_doc = true /\ clos_trans nat (draws_on (nodes_of merge_doc)) 5 2 /\
  n_comments (hget (nodes_of merge_doc) 5) = None /\
  match n_comments (hget (parsed_of merge_doc) 5) with Some l => map (fun x => l_text x) l | None => [] end = [Some (U "inner")].
Proof. exact merge_commented. Qed.
