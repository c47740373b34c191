(** PropWhole: what objects report for any chain of copies (C22-C24). *)
From Verif Require Import Base Types Messages Reporter Errors Context Elements SpecTree SpecResolve SpecRead SpecApi SpecQuery SpecLoad Session SessionRun
  QueryExamples SpecWhole WholeProofs WholeExamples.

(** * C22 *)

(** In every state: the value accessors of a field, item or entry pass on the value of what it copies,
    its own if it copies nothing. *)
Theorem C22_values : forall inp loc rk src c, parse_context inp loc rk src = Ok c ->
  forall s o cl e, reach c s -> names s o cl e -> has_value cl -> forall v, whole_value inp (c_heap c) e v ->
  forall A (ld : loader A) required, snd (value_of o ld required s) = value_outcome c e ld required v.
Proof. intros inp loc rk src c H. exact (value_whole H). Qed.
Print Assumptions C22_values.

(** There is exactly one such value. *)
Theorem C22_one_value : forall inp loc rk src c, parse_context inp loc rk src = Ok c ->
  forall s o cl e, reach c s -> names s o cl e -> has_value cl -> exists! v, whole_value inp (c_heap c) e v.
Proof. intros inp loc rk src c H. exact (value_is_whole H). Qed.
Print Assumptions C22_one_value.

(** [c] copies [b], which copies the continued field [a] *)
Example C22_values_sample : parse_context barecopy_doc en TextReporter None = Ok (ctx_of barecopy_doc) /\ reach (ctx_of barecopy_doc) (session barecopy_doc barecopy_calls) /\
  names (session barecopy_doc barecopy_calls) 4 CField 3 /\ whole_value barecopy_doc (c_heap (ctx_of barecopy_doc)) 3 (Some (U "1 2")) /\
  snd (value_of 4 string_loader true (session barecopy_doc barecopy_calls)) = Ok (Some (U "1 2")).
Proof. exact barecopy_sample. Qed.

(** * C23 *)

(** In every state: [List.items()] of a list is the items of what it copies, then its own. *)
Theorem C23_items : forall inp loc rk src c, parse_context inp loc rk src = Ok c ->
  forall s o e L, reach c s -> names s o CList e -> whole_items (c_heap c) e L ->
  exists ys, snd (list_items o s) = Ok ys /\ Forall2 (fun y x => is_obj (fst (list_items o s)) y CItem x (Some o)) ys L.
Proof. intros inp loc rk src c H. exact (items_whole H). Qed.
Print Assumptions C23_items.

(** Every element has exactly one such list of items, and of entries. *)
Theorem C23_one_list : forall inp loc rk src c, parse_context inp loc rk src = Ok c ->
  forall e, is_element (hget (c_heap c) e) -> (exists! L, whole_items (c_heap c) e L) /\ exists! L, whole_entries (c_heap c) e L.
Proof. intros inp loc rk src c H. exact (whole_ones H). Qed.
Print Assumptions C23_one_list.

(** * C24 *)

(** [Fieldset.entries(key)] of a fieldset: the entries of what it copies that it does not define, then
    its own. *)
Theorem C24_entries : forall inp loc rk src c, parse_context inp loc rk src = Ok c ->
  forall s o e key L, reach c s -> names s o CFieldset e -> whole_entries (c_heap c) e L ->
  exists ys, snd (fieldset_entries o key s) = Ok ys /\
    Forall2 (fun y x => is_obj (fst (fieldset_entries o key s)) y CEntry x (Some o)) ys (filter (keyed (c_heap c) key) L).
Proof. intros inp loc rk src c H. exact (entries_whole H). Qed.
Print Assumptions C24_entries.

(** [Fieldset.entry(key)] chooses among them. *)
Theorem C24_entry : forall inp loc rk src c, parse_context inp loc rk src = Ok c ->
  forall s o e key required L, reach c s -> names s o CFieldset e -> whole_entries (c_heap c) e L ->
  entry_answers c s (fst (entry_query o key required s)) o e key required (filter (keyed (c_heap c) key) L) (snd (entry_query o key required s)).
Proof. intros inp loc rk src c H. exact (entry_whole H). Qed.
Print Assumptions C24_entry.

(** lists and fieldsets that copy copies *)
Example C24_sample : parse_context whole_doc en TextReporter None = Ok (ctx_of whole_doc) /\ reach (ctx_of whole_doc) (session whole_doc whole_calls) /\
  names (session whole_doc whole_calls) 7 CList 5 /\ names (session whole_doc whole_calls) 8 CFieldset 12 /\
  whole_items (c_heap (ctx_of whole_doc)) 5 [2; 4; 6] /\ whole_entries (c_heap (ctx_of whole_doc)) 12 [11; 13; 14] /\
  (exists a b d, snd (list_items 7 (session whole_doc whole_calls)) = Ok [a; b; d]) /\
  exists a, snd (fieldset_entries 8 (key_named "y") (session whole_doc whole_calls)) = Ok [a].
Proof. exact whole_sample. Qed.
