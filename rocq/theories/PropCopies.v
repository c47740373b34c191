(** PropCopies: properties of copied sections (C25, C26).  [reach c s]: [s] is a state that some
    sequence of API calls brings about after the text was parsed into [c]. *)
From Verif Require Import Base Types Messages Reporter Errors Context Elements SpecTree SpecResolve SpecRead SpecApi SpecQuery SpecLinks Session SessionRun QueryExamples PropCopiesProofs CopiesExamples.

(** * C25 *)

(** The elements of a section whose chain of templates uses no deep copies are its own ones followed
    by those of its template that it does not redefine. *)
Theorem C25_own_then_copied_partial : forall inp loc rk src c, parse_context inp loc rk src = Ok c ->
  forall s o e key, reach c s -> names s o CSection e -> copied_plainly (c_heap c) e ->
  exists L ys, section_list (c_heap c) e L /\ snd (section_elements o key s) = Ok ys /\
    Forall2 (fun y x => is_obj (fst (section_elements o key s)) y CSectionElement x (Some o)) ys (filter (keyed (c_heap c) key) L).
Proof. intros inp loc rk src c H. exact (elements_copied H). Qed.
Print Assumptions C25_own_then_copied_partial.

Theorem C25_one_list : forall inp loc rk src c, parse_context inp loc rk src = Ok c ->
  forall e L L', section_list (c_heap c) e L -> section_list (c_heap c) e L' -> L = L'.
Proof. intros inp loc rk src c H. exact (one_section_list H). Qed.
Print Assumptions C25_one_list.

(** A deep copy makes a subsection forget the template it was given itself. *)
Theorem C25_deep_copy_refuted : exists inp c s o e L ys, parse_context inp en TextReporter None = Ok c /\ reach c s /\ names s o CSection e /\
  section_list (c_heap c) e L /\ snd (section_elements o None s) = Ok ys /\
  map (fun y => o_instr (oget (fst (section_elements o None s)) y)) ys <> L.
Proof. exact overridden. Qed.
Print Assumptions C25_deep_copy_refuted.

Example C25_chain : parse_context chain_doc en TextReporter None = Ok (ctx_of chain_doc) /\
  let h := c_heap (ctx_of chain_doc) in no_deep_sections h /\ copied_plainly h 8 /\ section_list h 8 [7; 5; 2] /\ is_section (hget h 8).
Proof. exact (conj chain_parsed chain_copies). Qed.

(** * C26 *)

(** A section can be made to take over its own elements: asking for them does not come back, however
    much fuel there is. *)
Theorem C26_terminates_refuted : exists inp c s o e, parse_context inp en TextReporter None = Ok c /\ reach c s /\ names s o CSection e /\
  o_children (oget s o) = None /\ snd (section_elements o None s) = Raise Fuel /\
  forall fuel s', snd (instantiate_elements fuel o e (MkSt c s')) <> Ok tt.
Proof. exact never_ends. Qed.
Print Assumptions C26_terminates_refuted.

(** That is the only obstacle: the first request for the elements of a section comes back exactly if
    its chain of links ends. *)
Theorem C26_terminates_iff_partial : forall inp loc rk src c, parse_context inp loc rk src = Ok c ->
  forall s o e key, reach c s -> names s o CSection e -> o_children (oget s o) = None ->
  ((exists ys, snd (section_elements o key s) = Ok ys) <-> ends (c_heap c) e) /\ (~ ends (c_heap c) e -> snd (section_elements o key s) = Raise Fuel).
Proof. intros inp loc rk src c H. exact (first_answer H). Qed.
Print Assumptions C26_terminates_iff_partial.

Theorem C26_terminates_partial : forall inp loc rk src c, parse_context inp loc rk src = Ok c -> well_founded_copies (c_heap c) ->
  forall s o e key, reach c s -> names s o CSection e -> exists ys, snd (section_elements o key s) = Ok ys.
Proof. intros inp loc rk src c H. exact (sections_answer H). Qed.
Print Assumptions C26_terminates_partial.

Theorem C26_links_end_partial : forall inp loc rk src c, parse_context inp loc rk src = Ok c -> well_founded_copies (c_heap c) ->
  forall e, ends (c_heap c) e.
Proof. intros inp loc rk src c H. exact (links_end H). Qed.
Print Assumptions C26_links_end_partial.

(** Without sections inside of deep copies it never arises. *)
Theorem C26_no_deep_sections : forall inp loc rk src c, parse_context inp loc rk src = Ok c -> no_deep_sections (c_heap c) -> well_founded_copies (c_heap c).
Proof. intros inp loc rk src c H. exact (no_deep_end H). Qed.
Print Assumptions C26_no_deep_sections.

Example C26_merged : parse_context merge_doc en TextReporter None = Ok (ctx_of merge_doc) /\
  well_founded_copies (c_heap (ctx_of merge_doc)) /\ merged (c_heap (ctx_of merge_doc)) 5 2.
Proof. exact (conj merge_parsed merge_founded). Qed.
Example C26_merged_answers : let s := session merge_doc [Query (Some KSection) 0 (Some (U "b")) None; Query (Some KSection) 3 (Some (U "x")) None] in
  names s 5 CSection 5 /\ exists y1 y2, snd (section_elements 5 None s) = Ok [y1; y2].
Proof. exact merge_answers. Qed.
