(** PropQuery: properties of queries, missing elements, yielding and loaders (C28-C31, C35, C47).
    [reach c s]: [s] is a state that some sequence of API calls brings about after the text was
    parsed into [c].  A section has a list of elements unless its chain of links is endless (C26). *)
From Verif Require Import Base Types Messages Reporter Errors Context Elements SpecTree SpecRead SpecApi SpecQuery SpecLoad Session SessionRun PropQueryProofs QueryExamples.

(** * C28 *)

Theorem C28_single_query : forall inp loc rk src c, parse_context inp loc rk src = Ok c ->
  forall s o e what key required L, reach c s -> names s o CSection e -> element_list (c_heap c) e L ->
  single_answer c s (fst (query what o key required s)) what o e key required (filter (keyed (c_heap c) key) L) (snd (query what o key required s)).
Proof. intros inp loc rk src c H. exact (query_single H). Qed.
Print Assumptions C28_single_query.

Theorem C28_single_entry : forall inp loc rk src c, parse_context inp loc rk src = Ok c ->
  forall s o e key required L, reach c s -> names s o CFieldset e -> entry_list (c_heap c) e L ->
  entry_answers c s (fst (entry_query o key required s)) o e key required (filter (keyed (c_heap c) key) L) (snd (entry_query o key required s)).
Proof. intros inp loc rk src c H. exact (query_entry H). Qed.
Print Assumptions C28_single_entry.

(** A section has one list of elements unless its chain of links is endless (C26); everything else
    has exactly one list of entries and of items. *)
Theorem C28_one_list : forall inp loc rk src c, parse_context inp loc rk src = Ok c ->
  forall e, (forall L L', element_list (c_heap c) e L -> element_list (c_heap c) e L' -> L = L') /\
    ((exists L, element_list (c_heap c) e L) <-> ends (c_heap c) e) /\
    (n_type (hget (c_heap c) e) <> SECTION -> (exists! L, entry_list (c_heap c) e L) /\ exists! L, item_list (c_heap c) e L).
Proof. intros inp loc rk src c H. exact (one_list H). Qed.
Print Assumptions C28_one_list.

(** The exception is not always a ValidationError: the report of the section that was found instead
    of a field can not be built (see C41). *)
Theorem C28_wrong_type_refuted : exists inp c s key, parse_context inp en TextReporter None = Ok c /\ reach c s /\ names s 0 CSection 0 /\
  (exists x, element_list (c_heap c) 0 [x] /\ filter (keyed (c_heap c) key) [x] = [x] /\ readable (n_type (hget (c_heap c) x)) KField = false) /\
  snd (query (Some KField) 0 key (Some true) s) = Raise TypeError.
Proof. exact wrong_type_breaks. Qed.
Print Assumptions C28_wrong_type_refuted.

Example C28_session : parse_context q_doc en TextReporter None = Ok (ctx_of q_doc) /\ (forall e, ends (c_heap (ctx_of q_doc)) e) /\
  reach (ctx_of q_doc) (session q_doc q_calls) /\ names (session q_doc q_calls) 6 CSection 7 /\ element_list (c_heap (ctx_of q_doc)) 7 [8; 9; 6].
Proof. exact (conj q_parsed (conj q_ends (conj q_reach (conj q_names q_list)))). Qed.
Example C28_answers : let s := session q_doc q_calls in
  (exists y, snd (query (Some KField) 6 (key_named "z") None s) = Ok (FObj y)) /\
  snd (query (Some KField) 6 (key_named "y") None s) = Raise TypeError /\
  is_validation (snd (query (Some KList) 6 (key_named "x") None s)) = true /\
  is_validation (snd (query None 0 (key_named "b") None s)) = true /\
  snd (query (Some KList) 6 (key_named "q") None s) = Ok (FMissing (Missing MKList (key_named "q") (PObject 6))) /\
  snd (query (Some KList) 6 (key_named "q") (Some false) s) = Ok FNone /\
  is_validation (snd (query (Some KList) 6 (key_named "q") (Some true) s)) = true.
Proof. exact q_answers. Qed.

(** * C29 *)

Theorem C29_plural_query : forall inp loc rk src c, parse_context inp loc rk src = Ok c ->
  forall s o e k key L, reach c s -> names s o CSection e -> element_list (c_heap c) e L ->
  plural_answer c s (fst (plural k o key s)) k o key (filter (keyed (c_heap c) key) L) (snd (plural k o key s)).
Proof. intros inp loc rk src c H. exact (query_plural H). Qed.
Print Assumptions C29_plural_query.

Theorem C29_elements : forall inp loc rk src c, parse_context inp loc rk src = Ok c ->
  forall s o e key L, reach c s -> names s o CSection e -> element_list (c_heap c) e L ->
  exists ys, snd (section_elements o key s) = Ok ys /\
    Forall2 (fun y x => is_obj (fst (section_elements o key s)) y CSectionElement x (Some o)) ys (filter (keyed (c_heap c) key) L).
Proof. intros inp loc rk src c H. exact (query_elements H). Qed.
Print Assumptions C29_elements.

Theorem C29_entries : forall inp loc rk src c, parse_context inp loc rk src = Ok c ->
  forall s o e key L, reach c s -> names s o CFieldset e -> entry_list (c_heap c) e L ->
  exists ys, snd (fieldset_entries o key s) = Ok ys /\
    Forall2 (fun y x => is_obj (fst (fieldset_entries o key s)) y CEntry x (Some o)) ys (filter (keyed (c_heap c) key) L).
Proof. intros inp loc rk src c H. exact (query_entries H). Qed.
Print Assumptions C29_entries.

Theorem C29_items : forall inp loc rk src c, parse_context inp loc rk src = Ok c ->
  forall s o e L, reach c s -> names s o CList e -> item_list (c_heap c) e L ->
  exists ys, snd (list_items o s) = Ok ys /\ Forall2 (fun y x => is_obj (fst (list_items o s)) y CItem x (Some o)) ys L.
Proof. intros inp loc rk src c H. exact (query_items H). Qed.
Print Assumptions C29_items.

(** As in C28 the exception is not always a ValidationError. *)
Theorem C29_wrong_type_refuted : exists inp c s key, parse_context inp en TextReporter None = Ok c /\ reach c s /\ names s 0 CSection 0 /\
  (exists x, element_list (c_heap c) 0 [x] /\ filter (keyed (c_heap c) key) [x] = [x] /\ readable (n_type (hget (c_heap c) x)) KField = false) /\
  snd (plural KField 0 key s) = Raise TypeError.
Proof. exact wrong_plural_breaks. Qed.
Print Assumptions C29_wrong_type_refuted.

Example C29_session : parse_context m_doc en TextReporter None = Ok (ctx_of m_doc) /\ (forall e, ends (c_heap (ctx_of m_doc)) e) /\
  reach (ctx_of m_doc) (session m_doc m_calls) /\ names (session m_doc m_calls) 4 CList 5 /\ names (session m_doc m_calls) 5 CFieldset 7 /\
  entry_list (c_heap (ctx_of m_doc)) 7 [8; 9; 10] /\ item_list (c_heap (ctx_of m_doc)) 5 [2; 3; 4; 6].
Proof. exact (conj m_parsed (conj m_ends (conj m_reach (conj (proj1 m_names) (conj (proj1 (proj2 m_names)) (conj m_entries m_items)))))). Qed.
Example C29_answers : let s := session m_doc m_calls in
  is_validation (snd (entry_query 5 (key_named "p") (Some true) s)) = true /\
  (exists y, snd (entry_query 5 (key_named "q") (Some true) s) = Ok (FObj y)) /\
  (exists a b, snd (fieldset_entries 5 (key_named "p") s) = Ok [a; b]) /\
  (exists w x y z, snd (list_items 4 s) = Ok [w; x; y; z]).
Proof. exact m_answers. Qed.

(** * C30 *)

(** Whatever is required below a missing element whose outermost missing ancestor was asked from
    the section object [o], the error is about that ancestor. *)
Theorem C30_outermost_blamed : forall inp loc rk src c, parse_context inp loc rk src = Ok c ->
  forall s m k key o e, reach c s -> outermost m = (k, key, o) -> names s o CSection e ->
  let error := v_missing_element c key e (absence_message k) in
  (forall what key', missing_query what m key' (Some true) s = (s, raised error)) /\
  (forall key', missing_entry m key' (Some true) s = (s, raised error)) /\
  (forall A, @missing_value A m true s = (s, raised error)) /\
  (forall A, @missing_comment A m true s = (s, raised error)) /\
  (forall A, @missing_key A m s = (s, raised error)).
Proof. intros inp loc rk src c H. exact (missing_blamed H). Qed.
Print Assumptions C30_outermost_blamed.

(** The section object stays what it is, so this holds at any later time. *)
Theorem C30_later : forall inp loc rk src c, parse_context inp loc rk src = Ok c ->
  forall s s' o cl e, reach c s -> goes_on s s' -> names s o cl e -> names s' o cl e.
Proof. intros inp loc rk src c H. exact (missing_stays H). Qed.
Print Assumptions C30_later.

(** A missing element is only handed out if there is no element with the key; what is asked below a
    missing element keeps the outermost one. *)
Theorem C30_path : forall inp loc rk src c, parse_context inp loc rk src = Ok c ->
  forall s o e, reach c s -> names s o CSection e -> forall L, element_list (c_heap c) e L -> forall what key req m, snd (query what o key req s) = Ok (FMissing m) ->
  outermost m = (missing_kind what, key, o) /\ filter (keyed (c_heap c) key) L = [] /\
  forall s', (forall what' key' m', snd (missing_query what' m key' None s') = Ok (FMissing m') -> outermost m' = outermost m) /\
    (forall key' m', snd (missing_entry m key' None s') = Ok (FMissing m') -> outermost m' = outermost m).
Proof. intros inp loc rk src c H. exact (missing_path H). Qed.
Print Assumptions C30_path.

(** What is optional is None and nothing raises. *)
Theorem C30_optional : forall m s, (forall what key, missing_query what m key (Some false) s = (s, Ok FNone)) /\
  (forall key, missing_entry m key (Some false) s = (s, Ok FNone)) /\ (forall A, @missing_value A m false s = (s, Ok None)) /\
  (forall A, @missing_comment A m false s = (s, Ok None)) /\ (forall A, @missing_list_values A m false s = (s, Ok [])).
Proof. exact missing_optional. Qed.
Print Assumptions C30_optional.

(** Except: the required values of a missing list are an empty list. *)
Theorem C30_required_values_refuted : exists inp s m, reach (ctx_of inp) s /\
  snd (query (Some KList) 0 (key_named "gone") None s) = Ok (FMissing m) /\ snd (@missing_list_values text m true s) = Ok [].
Proof. exact missing_values_wrong. Qed.
Print Assumptions C30_required_values_refuted.

Example C30_chain : exists m1 m2 m3,
  snd (query (Some KSection) 0 (key_named "gone") None (begin q_doc)) = Ok (FMissing m1) /\
  snd (missing_query (Some KFieldset) m1 (key_named "deeper") None (begin q_doc)) = Ok (FMissing m2) /\
  snd (missing_entry m2 (key_named "deepest") None (begin q_doc)) = Ok (FMissing m3) /\
  outermost m3 = (MKSection, key_named "gone", 0) /\ is_validation (snd (@missing_value text m3 true (begin q_doc))) = true.
Proof. exact missing_chain. Qed.

(** * C31 *)

Theorem C31_one_kind : forall inp loc rk src c, parse_context inp loc rk src = Ok c ->
  forall s e cl x k s1 y s2, reach c s -> names s e cl x -> cl = CSectionElement \/ cl = CElement -> to_kind k e s = (s1, Ok y) -> goes_on s1 s2 ->
  is_obj s1 y (kind_class k) x (o_parent (oget s e)) /\ to_kind k e s2 = (s2, Ok y) /\ forall j, j <> k ->
    to_kind j e s2 = (s2, match j with KSection => raised (v_unexpected_element_type c None x Q_expected_section) | _ => Raise TypeError end).
Proof. intros inp loc rk src c H. exact (yielded_again H). Qed.
Print Assumptions C31_one_kind.

(** The same query gives the same objects, whatever is asked in between. *)
Theorem C31_same_object : forall inp loc rk src c, parse_context inp loc rk src = Ok c ->
  forall s o e what key req req' s1 y s2, reach c s -> names s o CSection e -> query what o key req s = (s1, Ok (FObj y)) -> goes_on s1 s2 ->
  snd (query what o key req' s2) = Ok (FObj y).
Proof. intros inp loc rk src c H. exact (same_object H). Qed.
Print Assumptions C31_same_object.

Theorem C31_same_objects : forall inp loc rk src c, parse_context inp loc rk src = Ok c ->
  forall s o e k key s1 ys s2, reach c s -> names s o CSection e ->
  (plural k o key s = (s1, Ok ys) -> goes_on s1 s2 -> snd (plural k o key s2) = Ok ys) /\
  (section_elements o key s = (s1, Ok ys) -> goes_on s1 s2 -> snd (section_elements o key s2) = Ok ys).
Proof. intros inp loc rk src c H. exact (same_objects H). Qed.
Print Assumptions C31_same_objects.

Theorem C31_same_members : forall inp loc rk src c, parse_context inp loc rk src = Ok c ->
  forall s o e key s1 ys s2, reach c s ->
  (names s o CFieldset e -> fieldset_entries o key s = (s1, Ok ys) -> goes_on s1 s2 -> snd (fieldset_entries o key s2) = Ok ys) /\
  (names s o CList e -> list_items o s = (s1, Ok ys) -> goes_on s1 s2 -> snd (list_items o s2) = Ok ys).
Proof. intros inp loc rk src c H. exact (same_members H). Qed.
Print Assumptions C31_same_members.

Example C31_session : let s := session q_doc q_calls in names s 2 CSectionElement 2 /\
  exists s1, to_kind KList 2 s = (s1, Ok 11) /\ goes_on s1 (run_calls [Query None 0 (key_named "a") None; Yield KField 2; Touch 0] s1) /\
    snd (to_kind KEmpty 2 s1) = Raise TypeError.
Proof. exact yield_session. Qed.

(** * C35 *)

Theorem C35_value : forall inp loc rk src c, parse_context inp loc rk src = Ok c ->
  forall s o cl e, reach c s -> names s o cl e -> has_value cl -> exists v, value_text inp (c_heap c) e v /\
  forall A (ld : loader A) required, snd (value_of o ld required s) = value_outcome c e ld required v.
Proof. intros inp loc rk src c H. exact (value_loaded H). Qed.
Print Assumptions C35_value.

Theorem C35_one_value : forall inp loc rk src c, parse_context inp loc rk src = Ok c ->
  forall e v w, value_text inp (c_heap c) e v -> value_text inp (c_heap c) e w -> v = w.
Proof. intros inp loc rk src c H. exact (value_text_one H). Qed.
Print Assumptions C35_one_value.

Theorem C35_values : forall inp loc rk src c, parse_context inp loc rk src = Ok c ->
  forall s o e L, reach c s -> names s o CList e -> item_list (c_heap c) e L ->
  exists vs, Forall2 (value_text inp (c_heap c)) L vs /\ forall A (ld : loader A) required,
    in_turn (map (fun p => value_outcome c (fst p) ld required (snd p)) (combine L vs)) (snd (list_values o ld required s)).
Proof. intros inp loc rk src c H. exact (values_loaded H). Qed.
Print Assumptions C35_values.

Theorem C35_comment : forall inp loc rk src c, parse_context inp loc rk src = Ok c ->
  forall s o cl e, reach c s -> names s o cl e -> exists v, comment_text (c_heap c) e v /\
  forall A (ld : loader A) required, snd (comment_of o ld required s) = comment_outcome c e ld required v.
Proof. intros inp loc rk src c H. exact (comment_loaded H). Qed.
Print Assumptions C35_comment.

Theorem C35_key : forall inp loc rk src c, parse_context inp loc rk src = Ok c ->
  forall s o cl e, reach c s -> names s o cl e ->
  (forall A (ld : loader A), snd (key_with o ld s) = key_outcome c e ld) /\ snd (string_key o s) = key_outcome c e string_loader.
Proof. intros inp loc rk src c H. exact (key_loaded H). Qed.
Print Assumptions C35_key.

(** The text of the error contains the message of the loader, in every locale. *)
Theorem C35_message : forall inp loc rk src c, parse_context inp loc rk src = Ok c ->
  forall m e er, loc = en \/ loc = de \/ loc = es ->
  (v_value_error c m e = Ok er -> contains (er_text er) m) /\ (v_comment_error c m e = Ok er -> contains (er_text er) m) /\
  (v_key_error c m e = Ok er -> contains (er_text er) m).
Proof. intros inp loc rk src c H. exact (message_told H). Qed.
Print Assumptions C35_message.

(** A key loader that raises ValueError for the key of a list item: KeyError instead of a
    ValidationError.  A comment without text is not handed to the loader but raises KeyError. *)
Theorem C35_item_key_refuted : exists inp s o e, reach (ctx_of inp) s /\ names s o CItem e /\
  snd (key_with o string_loader s) = Ok (U "l") /\ snd (key_with o bad_loader s) = Raise KeyError.
Proof. exact item_key_wrong. Qed.
Print Assumptions C35_item_key_refuted.
Theorem C35_empty_comment_refuted : exists inp s o e, reach (ctx_of inp) s /\ names s o CField e /\
  snd (comment_of o string_loader false s) = Raise KeyError.
Proof. exact hollow_wrong. Qed.
Print Assumptions C35_empty_comment_refuted.

Example C35_loads : let s := session m_doc m_calls in
  snd (list_values 4 string_loader false s) = Ok [Some (U "1"); None; Some (U "3"); Some (U "4")] /\
  is_validation (snd (list_values 4 string_loader true s)) = true /\
  is_validation (snd (value_of 7 bad_loader true s)) = true /\
  snd (comment_of 6 string_loader true s) = Ok (Some (U "note")) /\
  snd (key_with 4 string_loader s) = Ok (U "m").
Proof. exact m_loads. Qed.

(** * C47 *)

Theorem C47_errors_fixed : forall inp loc rk src c, parse_context inp loc rk src = Ok c ->
  forall s o cl e m, reach c s -> names s o cl e ->
  error_of o m s = (s, v_element_error c m e) /\ comment_error_of o m s = (s, v_comment_error c m e) /\
  key_error_of o m s = (s, v_key_error c m e) /\ value_error_of o m s = (s, v_value_error c m e).
Proof. intros inp loc rk src c H. exact (errors_fixed H). Qed.
Print Assumptions C47_errors_fixed.

Example C47_session : reach (ctx_of m_doc) (session m_doc m_calls) /\ names (session m_doc m_calls) 4 CList 5 /\
  s_ctx (fst (run_call (Values text 4 string_loader false) (session m_doc m_calls))) <> ctx_of m_doc.
Proof. exact errors_session. Qed.
