(** PropTouch: PROPERTIES C32, C33 (what was looked at) and C34 (absence as an error).

    [reach c s]: the state of the objects handed out after any sequence of API calls on the document.
    SpecTouch: [touched s y] is the flag of object [y].  [all_seen h s o only skip]: every element of
    section object [o] (up to the keys the caller left out) was read as something, that something was
    used, and so was everything below.  [overlooked h s o only skip i]: instruction [i] is an element,
    entry or item below [o] that was not.  [uses c cl]: the API calls that count as a use. *)
From Verif Require Import Base Types Messages Reporter Errors Context Elements SpecTree SpecRead SpecApi SpecQuery SpecLoad SpecTouch SpecRequire Session SessionRun QueryExamples PropTouchProofs TouchExamples.

(** * C32 *)

(** assert_all_touched() passes exactly if everything was used; otherwise what it reports was not.
    (Links between copied sections that never end lead to a RecursionError instead.) *)
Theorem C32_exactly_the_unused : forall inp loc rk src c, parse_context inp loc rk src = Ok c ->
  forall s o e m only skip, reach c s -> names s o CSection e ->
  let v := snd (assert_all_touched o m only skip s) in
  (v = Ok tt <-> all_seen (c_heap c) s o only skip) /\
  (v = Ok tt \/
   (exists i, v = raised (v_unexpected_element c (message_text m i) i) /\ overlooked (c_heap c) s o only skip i) \/
   v = Raise Fuel /\ exists j, ~ ends (c_heap c) j).
Proof. intros inp loc rk src c H. exact (asserted H). Qed.
Print Assumptions C32_exactly_the_unused.

Theorem C32_not_both : forall inp loc rk src c, parse_context inp loc rk src = Ok c ->
  forall s o e only skip, reach c s -> names s o CSection e ->
  forall i, overlooked (c_heap c) s o only skip i -> ~ all_seen (c_heap c) s o only skip.
Proof. intros inp loc rk src c H. exact (either_seen H). Qed.
Print Assumptions C32_not_both.

(** The flag says whether an object was used: a call that counts as a use sets it, and no call sets
    the flag of anything it did not use. *)
Theorem C32_used : forall inp loc rk src c, parse_context inp loc rk src = Ok c ->
  forall s x y, reach c s -> subject x < length (s_objs s) -> callable x (o_class (oget s (subject x))) ->
  let s' := fst (run_call x s) in
  (uses x (o_class (oget s (subject x))) -> touched s' (subject x)) /\
  (touched s' y -> touched s y \/ (y = subject x /\ uses x (o_class (oget s y))) \/ also_uses x s' y).
Proof. intros inp loc rk src c H. exact (used H). Qed.
Print Assumptions C32_used.

(** Fieldsets: an error exactly if some entry was not used, but it is a TypeError. *)
Theorem C32_entries : forall inp loc rk src c, parse_context inp loc rk src = Ok c ->
  forall s o e m only skip, reach c s -> names s o CFieldset e ->
  snd (fieldset_assert_all_touched o m only skip s) = Ok tt /\ entries_seen (c_heap c) s o only skip \/
  snd (fieldset_assert_all_touched o m only skip s) = Raise TypeError /\ ~ entries_seen (c_heap c) s o only skip.
Proof. intros inp loc rk src c H. exact (asserted_entries H). Qed.
Print Assumptions C32_entries.
Theorem C32_entries_refuted : exists inp s o e, parse_context inp en TextReporter None = Ok (ctx_of inp) /\ reach (ctx_of inp) s /\ names s o CFieldset e /\
  snd (fieldset_assert_all_touched o MsgNone None None s) = Raise TypeError.
Proof. exact fieldset_wrong. Qed.
Print Assumptions C32_entries_refuted.

Example C32_sessions : reach (ctx_of w_doc) (session w_doc w_some) /\ reach (ctx_of w_doc) (session w_doc w_all) /\
  all_seen (c_heap (ctx_of w_doc)) (session w_doc w_all) 0 None None /\
  overlooked (c_heap (ctx_of w_doc)) (session w_doc w_some) 0 None None 6.
Proof. exact (conj w_reach2 (conj w_reach3 (conj w_all_seen w_overlooked))). Qed.
Example C32_answers :
  snd (assert_all_touched 0 MsgNone None None (session w_doc w_all)) = Ok tt /\
  is_validation (snd (assert_all_touched 0 MsgNone None None (session w_doc w_some))) = true /\
  snd (assert_all_touched 0 MsgNone None (Some [U "s"]) (session w_doc w_some)) = Ok tt /\
  snd (assert_all_touched 0 MsgNone (Some [U "a"; U "b"]) None (session w_doc w_some)) = Ok tt.
Proof. exact w_asserts. Qed.
Example C32_fieldset : names (session w_doc w_some) 6 CFieldset 2 /\ snd (fieldset_assert_all_touched 6 MsgNone None None (session w_doc w_some)) = Ok tt.
Proof. exact (conj (proj2 w_fieldset) w_entries). Qed.

(** * C33 *)

(** touch() does not reach elements that were not read yet ... *)
Theorem C33_refuted : exists inp s o e, parse_context inp en TextReporter None = Ok (ctx_of inp) /\ reach (ctx_of inp) s /\ names s o CSection e /\
  snd (touch_section o s) = Ok tt /\ is_validation (snd (assert_all_touched o MsgNone None None (fst (touch_section o s)))) = true.
Proof. exact touch_wrong. Qed.
Print Assumptions C33_refuted.
(** ... and that is all that is missing: after touch(), assert_all_touched() passes exactly if
    everything had been read as something. *)
Theorem C33_after_touch_partial : forall inp loc rk src c, parse_context inp loc rk src = Ok c ->
  forall s o e, reach c s -> names s o CSection e ->
  let s' := fst (touch_section o s) in
  snd (touch_section o s) = Ok tt /\ touched s' o /\
    (forall only skip m, snd (assert_all_touched o m only skip s') = Ok tt <-> all_opened (c_heap c) s o only skip) \/
  snd (touch_section o s) = Raise Fuel /\ exists j, ~ ends (c_heap c) j.
Proof. intros inp loc rk src c H. exact (touched_section H). Qed.
Print Assumptions C33_after_touch_partial.

Example C33_session : let s := session w_doc w_reads in
  snd (touch_section 0 s) = Ok tt /\ snd (assert_all_touched 0 MsgNone None None (fst (touch_section 0 s))) = Ok tt /\
  is_validation (snd (assert_all_touched 0 MsgNone None None s)) = true /\ all_opened (c_heap (ctx_of w_doc)) s 0 None None.
Proof. exact w_touch. Qed.

(** * C34 *)

(** all_elements_required() fails on sections and fieldsets that were not read before ... *)
Theorem C34_refuted : exists inp s o e, parse_context inp en TextReporter None = Ok (ctx_of inp) /\ reach (ctx_of inp) s /\ names s o CSection e /\
  snd (all_elements_required o true s) = Raise AttributeError.
Proof. exact require_wrong. Qed.
Print Assumptions C34_refuted.
(** ... and forgets fieldsets without entries that were read before. *)
Theorem C34_fieldset_refuted : exists inp s o e y, parse_context inp en TextReporter None = Ok (ctx_of inp) /\ reach (ctx_of inp) s /\ names s o CSection e /\
  snd (all_elements_required o true s) = Ok tt /\
  (exists x, snd (query (Some KFieldset) o (key_named "c") None (fst (all_elements_required o true s))) = Ok (FObj y) /\ names s y CFieldset x) /\
  snd (entry_query y (key_named "x") None (fst (all_elements_required o true s))) = Ok (FMissing (Missing MKEntry (key_named "x") (PObject y))).
Proof. exact require_misses. Qed.
Print Assumptions C34_fieldset_refuted.

(** When it succeeds. *)
Theorem C34_succeeds : forall inp loc rk src c, parse_context inp loc rk src = Ok c ->
  forall s o e b, reach c s -> names s o CSection e ->
  let v := snd (all_elements_required o b s) in
  (v = Ok tt /\ ready (c_heap c) s o) \/ (v = Raise AttributeError /\ ~ ready (c_heap c) s o) \/ (v = Raise Fuel /\ exists j, ~ ends (c_heap c) j).
Proof. intros inp loc rk src c H. exact (required_when H). Qed.
Print Assumptions C34_succeeds.

(** Once it succeeded, every query without a result raises, in all sections and fieldsets inside [o],
    now or after any calls that do not change the flag themselves; but see [reached] for fieldsets
    without entries. *)
Theorem C34_required_partial : forall inp loc rk src c, parse_context inp loc rk src = Ok c ->
  forall s o e s' y, reach c s -> names s o CSection e -> snd (all_elements_required o true s) = Ok tt ->
  goes_on_plainly (fst (all_elements_required o true s)) s' -> reached (c_heap c) (fst (all_elements_required o true s)) s' o y ->
  (o_class (oget s' y) = CSection -> forall L what key req, element_list (c_heap c) (o_instr (oget s' y)) L -> filter (keyed (c_heap c) key) L = [] ->
     snd (query what y key req s') = raised (v_missing_element c key (o_instr (oget s' y)) (missing_message what))) /\
  (o_class (oget s' y) = CFieldset -> forall L key req, entry_list (c_heap c) (o_instr (oget s' y)) L -> filter (keyed (c_heap c) key) L = [] ->
     snd (entry_query y key req s') = raised (v_missing_element c key (o_instr (oget s' y)) Q_missing_fieldset_entry)).
Proof. intros inp loc rk src c H. exact (required_then H). Qed.
Print Assumptions C34_required_partial.

Example C34_session : let s := session w_doc w_reads in let s' := fst (all_elements_required 0 true s) in
  snd (all_elements_required 0 true s) = Ok tt /\ ready (c_heap (ctx_of w_doc)) s 0 /\
  reached (c_heap (ctx_of w_doc)) s' s' 0 9 /\ reached (c_heap (ctx_of w_doc)) s' s' 0 6 /\
  is_validation (snd (query None 9 (key_named "x") None s')) = true /\ is_validation (snd (entry_query 6 (key_named "x") (Some false) s')) = true.
Proof. exact w_require. Qed.
