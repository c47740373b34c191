(** PropRaw: properties of raw() next to the other accessors (C17, C27).  [reach c s]: [s] is a state
    that some sequence of API calls brings about after the text was parsed into [c]. *)
From Coq Require Import Permutation.
From Verif Require Import Base Types Messages Reporter Errors Context Elements SpecTree SpecRead SpecApi SpecQuery SpecLoad SpecLinks SpecGround SpecRaw Session SessionRun QueryExamples PropRawProofs RawDoc RawExamples CopiedRaw HollowRaw GroundExamples AskFails.

(** * C17 *)

(** If no section is nothing but a copy and the links of sections end, then what raw() returned for an
    element it returns for it in any state, on any object that stands for the element. *)
Theorem C17_always_the_same_partial : forall inp loc rk src c, parse_context inp loc rk src = Ok c ->
  forall s s' o o' cl cl' e x, (forall i, ends (c_heap c) i) -> no_mirrored_sections (c_heap c) ->
  reach c s -> reach c s' -> names s o cl e -> names s' o' cl' e ->
  snd (raw_of o s) = Ok x -> snd (raw_of o' s') = Ok x.
Proof. intros inp loc rk src c H. exact (raw_same H). Qed.
Print Assumptions C17_always_the_same_partial.

(** Of the document it returns the same in any state, or never returns, if the links of sections end. *)
Theorem C17_documents_partial : forall inp loc rk src c, parse_context inp loc rk src = Ok c ->
  forall s s' o o' cl cl' x, (forall i, ends (c_heap c) i) -> reach c s -> reach c s' -> names s o cl 0 -> names s' o' cl' 0 ->
  (snd (raw_of o s) = Ok x <-> snd (raw_of o' s') = Ok x).
Proof. intros inp loc rk src c H. exact (document_same H). Qed.
Print Assumptions C17_documents_partial.

(** If they do not end, what raw() returns depends on what it was called on before. *)
Theorem C17_earlier_calls_refuted : exists inp s s' x y, parse_context inp en TextReporter None = Ok (ctx_of inp) /\ reach (ctx_of inp) s /\ reach (ctx_of inp) s' /\
  names s 0 CSection 0 /\ names s' 0 CSection 0 /\ snd (raw_of 0 s) = Ok x /\ snd (raw_of 0 s') = Ok y /\ x <> y.
Proof. exact earlier_calls. Qed.
Print Assumptions C17_earlier_calls_refuted.

(** * C27 *)

(** Full statement: raw() lists the same elements, entries and items in the same order as the
    accessors.  For a section that extends another one the order is another one. *)
Theorem C27_order_refuted : exists inp s o e x s' ys, parse_context inp en TextReporter None = Ok (ctx_of inp) /\ reach (ctx_of inp) s /\ names s o CSection e /\
  snd (raw_of o s) = Ok x /\ section_elements o None s = (s', Ok ys) /\ ~ Forall2 (fun y z => snd (raw_of y s') = Ok z) ys (raw_members x).
Proof. exact other_order. Qed.
Print Assumptions C27_order_refuted.

(** If some section is nothing but a copy then raw() of the document does not return at all. *)
Theorem C27_mirrored_refuted : exists inp ys, parse_context inp en TextReporter None = Ok (ctx_of inp) /\ reach (ctx_of inp) (begin inp) /\ names (begin inp) 0 CSection 0 /\
  snd (section_elements 0 None (begin inp)) = Ok ys /\ snd (raw_of 0 (begin inp)) = Raise TypeError.
Proof. exact bare_raises. Qed.
Print Assumptions C27_mirrored_refuted.

(** Nor does it in any later state. *)
Theorem C27_mirrored_fails : forall inp loc rk src c, parse_context inp loc rk src = Ok c ->
  forall s o cl x, reach c s -> names s o cl 0 -> snd (raw_of o s) = Ok x -> no_mirrored_sections (c_heap c).
Proof. intros inp loc rk src c H. exact (document_unmirrored H). Qed.
Print Assumptions C27_mirrored_fails.

(** The descriptions that the specification gives are those that raw() returns. *)
Theorem C27_described : forall inp loc rk src c, parse_context inp loc rk src = Ok c ->
  forall s o cl e x, reach c s -> names s o cl e -> raw_tree inp (c_heap c) e x -> snd (raw_of o s) = Ok x.
Proof. intros inp loc rk src c H. exact (raw_complete H). Qed.
Print Assumptions C27_described.

Theorem C27_only_described_partial : forall inp loc rk src c, parse_context inp loc rk src = Ok c ->
  forall s o cl e x, (forall i, ends (c_heap c) i) -> no_mirrored_sections (c_heap c) ->
  reach c s -> names s o cl e -> snd (raw_of o s) = Ok x -> raw_tree inp (c_heap c) e x.
Proof. intros inp loc rk src c H. exact (raw_only H). Qed.
Print Assumptions C27_only_described_partial.

(** Of the document it returns its description only. *)
Theorem C27_document_partial : forall inp loc rk src c, parse_context inp loc rk src = Ok c ->
  forall s o cl x, (forall i, ends (c_heap c) i) -> reach c s -> names s o cl 0 -> (snd (raw_of o s) = Ok x <-> raw_tree inp (c_heap c) 0 x).
Proof. intros inp loc rk src c H. exact (document_only H). Qed.
Print Assumptions C27_document_partial.

Theorem C27_one_description : forall inp loc rk src c, parse_context inp loc rk src = Ok c ->
  forall e x y, raw_tree inp (c_heap c) e x -> raw_tree inp (c_heap c) e y -> x = y.
Proof. intros inp loc rk src c H. exact (raw_one H). Qed.
Print Assumptions C27_one_description.

(** If no section copies another one and no comment is empty, all elements have a description. *)
Theorem C27_all_described_partial : forall inp loc rk src c, parse_context inp loc rk src = Ok c ->
  forall e, no_section_copies (c_heap c) -> (forall i, hollow_comment (c_heap c) i = false) -> e < length (c_heap c) ->
  exists x, raw_tree inp (c_heap c) e x.
Proof. intros inp loc rk src c H. exact (raw_total H). Qed.
Print Assumptions C27_all_described_partial.

(** Sections may copy others, as long as none is nothing but a copy and none shows itself by copying
    and containing others: then raw() returns, for every element, what the specification says. *)
Theorem C27_returned_partial : forall inp loc rk src c, parse_context inp loc rk src = Ok c ->
  grounded (c_heap c) -> no_mirrored_sections (c_heap c) -> (forall i, hollow_comment (c_heap c) i = false) ->
  forall s o cl e, reach c s -> names s o cl e -> exists x, snd (raw_of o s) = Ok x /\ raw_tree inp (c_heap c) e x.
Proof. intros inp loc rk src c H. exact (raw_returns H). Qed.
Print Assumptions C27_returned_partial.

(** If no section shows itself, raw() of the document returns exactly if no section is nothing but a
    copy and no comment is empty. *)
Theorem C27_document_returned : forall inp loc rk src c, parse_context inp loc rk src = Ok c ->
  grounded (c_heap c) -> forall s o cl, reach c s -> names s o cl 0 ->
  ((exists x, snd (raw_of o s) = Ok x) <-> no_mirrored_sections (c_heap c) /\ forall i, hollow_comment (c_heap c) i = false).
Proof. intros inp loc rk src c H. exact (returns_exactly H). Qed.
Print Assumptions C27_document_returned.

(** If no deep copy contains a section then no section shows itself. *)
Theorem C27_grounded : forall inp loc rk src c, parse_context inp loc rk src = Ok c -> no_deep_sections (c_heap c) -> grounded (c_heap c).
Proof. intros inp loc rk src c H. exact (no_deep_grounded H). Qed.
Print Assumptions C27_grounded.

(** If the links of sections end and raw() of the document returned, then raw() of every element
    returns, in every state, and what the specification says. *)
Theorem C27_then_all_partial : forall inp loc rk src c, parse_context inp loc rk src = Ok c -> (forall i, ends (c_heap c) i) ->
  forall s o cl x, reach c s -> names s o cl 0 -> snd (raw_of o s) = Ok x ->
  forall s' o' cl' e, reach c s' -> names s' o' cl' e -> exists y, snd (raw_of o' s') = Ok y /\ raw_tree inp (c_heap c) e y.
Proof. intros inp loc rk src c H. exact (then_all H). Qed.
Print Assumptions C27_then_all_partial.

Example C27_plain_copies : let h := c_heap (ctx_of q_doc) in
  no_deep_sections h /\ no_mirrored_sections h /\ (forall i, hollow_comment h i = false) /\
  exists e, is_section (hget h e) /\ n_template (hget h e) <> None.
Proof. exact (conj q_no_deep (conj q_not_mirrored (conj q_not_hollow q_copies))). Qed.
Example C27_deep_copies : let h := c_heap (ctx_of deep_doc) in
  parse_context deep_doc en TextReporter None = Ok (ctx_of deep_doc) /\ grounded h /\
  (n_deep_copy (hget h 4) = true /\ n_parent (hget h 5) = Some 4 /\ is_section (hget h 5)) /\
  snd (raw_of 0 (begin deep_doc)) = Ok (RawDocument [RawSection None (U "s") [RawSection None (U "b") [RawField None (U "x") (Some (U "1"))]];
    RawSection None (U "t") [RawSection None (U "b") [RawField None (U "x") (Some (U "1")); RawField None (U "y") (Some (U "2"))]]]).
Proof. exact (conj deep_parsed (conj deep_grounded (conj deep_deep deep_raw))). Qed.

(** The members of the description of a list or fieldset are the descriptions of its items or entries,
    in their order. *)
Theorem C27_items : forall inp loc rk src c, parse_context inp loc rk src = Ok c ->
  forall s o e x s' ys, reach c s -> names s o CList e -> n_type (hget (c_heap c) e) = LIST -> raw_tree inp (c_heap c) e x ->
  list_items o s = (s', Ok ys) -> Forall2 (fun y z => snd (raw_of y s') = Ok z) ys (raw_members x).
Proof. intros inp loc rk src c H. exact (raw_items H). Qed.
Print Assumptions C27_items.

Theorem C27_entries : forall inp loc rk src c, parse_context inp loc rk src = Ok c ->
  forall s o e x s' ys, reach c s -> names s o CFieldset e -> n_type (hget (c_heap c) e) = FIELDSET -> raw_tree inp (c_heap c) e x ->
  fieldset_entries o None s = (s', Ok ys) -> Forall2 (fun y z => snd (raw_of y s') = Ok z) ys (raw_members x).
Proof. intros inp loc rk src c H. exact (raw_entries H). Qed.
Print Assumptions C27_entries.

(** Those of a section that is no copy are the descriptions of its elements in their order ... *)
Theorem C27_elements_partial : forall inp loc rk src c, parse_context inp loc rk src = Ok c ->
  forall s o e x s' ys, reach c s -> names s o CSection e -> plain (c_heap c) e -> raw_tree inp (c_heap c) e x ->
  section_elements o None s = (s', Ok ys) -> Forall2 (fun y z => snd (raw_of y s') = Ok z) ys (raw_members x).
Proof. intros inp loc rk src c H. exact (raw_sections H). Qed.
Print Assumptions C27_elements_partial.

(** ... and those of any section are the same elements in some order. *)
Theorem C27_same_elements_partial : forall inp loc rk src c, parse_context inp loc rk src = Ok c ->
  forall s o e x s' ys L, reach c s -> names s o CSection e -> element_list (c_heap c) e L -> raw_tree inp (c_heap c) e x ->
  section_elements o None s = (s', Ok ys) ->
  exists zs, Permutation zs (raw_members x) /\ Forall2 (fun y z => snd (raw_of y s') = Ok z) ys zs.
Proof. intros inp loc rk src c H. exact (raw_set H). Qed.
Print Assumptions C27_same_elements_partial.

Example C27_extended : parse_context q_doc en TextReporter None = Ok (ctx_of q_doc) /\
  (forall e, ends (c_heap (ctx_of q_doc)) e) /\ no_mirrored_sections (c_heap (ctx_of q_doc)) /\
  reach (ctx_of q_doc) (session q_doc q_calls) /\ names (session q_doc q_calls) 6 CSection 7 /\
  element_list (c_heap (ctx_of q_doc)) 7 [8; 9; 6] /\ raw_tree q_doc (c_heap (ctx_of q_doc)) 7 t_raw /\
  raw_members t_raw = [RawField None (U "z") (Some (U "3")); RawField None (U "x") (Some (U "2")); RawEmpty None (U "y")].
Proof. exact (conj q_parsed (conj q_ends (conj q_not_mirrored (conj q_reach (conj q_names (conj q_list (conj t_tree (proj2 q_members)))))))). Qed.
Example C27_document : reach (ctx_of q_doc) (begin q_doc) /\ names (begin q_doc) 0 CSection 0 /\
  raw_tree q_doc (c_heap (ctx_of q_doc)) 0 q_raw /\ length (raw_members q_raw) = 5.
Proof. exact (conj (proj1 q_start) (conj (proj2 q_start) (conj q_tree (proj1 q_members)))). Qed.
Example C27_members : let h := c_heap (ctx_of m_doc) in let s := session m_doc m_calls in
  no_section_copies h /\ (forall i, hollow_comment h i = false) /\
  (exists x, raw_tree m_doc h 5 x) /\ n_type (hget h 5) = LIST /\ (exists w x y z, snd (list_items 4 s) = Ok [w; x; y; z]) /\
  (exists x, raw_tree m_doc h 7 x) /\ n_type (hget h 7) = FIELDSET /\ (exists x y z, snd (fieldset_entries 5 None s) = Ok [x; y; z]).
Proof. exact (conj (proj1 m_not_copied) (conj (proj2 m_not_copied) m_raws)). Qed.
