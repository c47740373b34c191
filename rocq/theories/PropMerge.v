(** PropMerge: the elements of sections, deep copies included (C25). *)
From Verif Require Import Base Types Messages Reporter Errors Context Elements SpecTree SpecResolve SpecRead SpecApi SpecQuery SpecLinks Session SessionRun
  QueryExamples CopiesExamples MergeExamples SpecMerge.

(** Whatever is copied how, the elements of a section are its own ones followed by those of the
    section it takes over that it does not redefine. *)
Theorem C25_merged_partial : forall inp loc rk src c, parse_context inp loc rk src = Ok c ->
  forall s o e key L, reach c s -> names s o CSection e -> merged_list (c_heap c) e L ->
  exists ys, snd (section_elements o key s) = Ok ys /\
    Forall2 (fun y x => is_obj (fst (section_elements o key s)) y CSectionElement x (Some o)) ys (filter (keyed (c_heap c) key) L).
Proof. intros inp loc rk src c H. exact (elements_merged H). Qed.
Print Assumptions C25_merged_partial.

(** If no section takes over its own elements this describes all sections. *)
Theorem C25_merged_total_partial : forall inp loc rk src c, parse_context inp loc rk src = Ok c -> well_founded_copies (c_heap c) ->
  forall e, e < length (c_heap c) -> exists L, merged_list (c_heap c) e L.
Proof. intros inp loc rk src c H. exact (merged_lists H). Qed.
Print Assumptions C25_merged_total_partial.

Theorem C25_merged_one : forall inp loc rk src c, parse_context inp loc rk src = Ok c ->
  forall e L L', merged_list (c_heap c) e L -> merged_list (c_heap c) e L' -> L = L'.
Proof. intros inp loc rk src c H. exact (one_merged_list H). Qed.
Print Assumptions C25_merged_one.

(** A section takes over from one section at most, and from none only if no copy gives it anything. *)
Theorem C25_one_heir : forall inp loc rk src c, parse_context inp loc rk src = Ok c ->
  forall e, is_section (hget (c_heap c) e) ->
  (on_its_own (c_heap c) e \/ exists a u t, heir (c_heap c) a u e t) /\
  forall a u t a' u' t', heir (c_heap c) a u e t -> heir (c_heap c) a' u' e t' -> t = t'.
Proof. intros inp loc rk src c H. exact (heirs H). Qed.
Print Assumptions C25_one_heir.

(** a subsection that copies one section, in a deep copy that merges it with another one *)
Example C25_sample : parse_context deep_doc en TextReporter None = Ok (ctx_of deep_doc) /\ c_heap (ctx_of deep_doc) = deep_heap /\
  merged_list deep_heap 10 [11; 12; 4] /\ merged_list deep_heap 12 [6] /\ template_is true deep_heap 10 7.
Proof. exact (conj deep_parsed (conj deep_is deep_lists)). Qed.
