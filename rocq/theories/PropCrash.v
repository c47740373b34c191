(** PropCrash: PROPERTY C63 (the exceptions programs have to reckon with).

    SpecCrash: [failing c k e]: the call [k] may end with the exception [e]: a validation error about
    the document, what the loader passed to the call raises, a KeyError, a TypeError, for two calls an
    AttributeError, and an endless recursion only if the links of copied sections do not end, and only
    in calls that go through sections.  ParseError, IndexError and UnboundLocalError are not among
    them.  [began_at m]: the object a chain of missing elements begins at. *)
From Verif Require Import Base Types Messages Reporter Errors Context Elements Session SpecApi SessionRun Faults QueryExamples SpecPrint SpecQuery SpecCrash CrashRun ReadFails SpecLinks AskFails.

Theorem C63_calls : forall inp loc rk src c, parse_context inp loc rk src = Ok c -> forall s k e, reach c s ->
  subject k < length (s_objs s) -> callable k (o_class (oget s (subject k))) -> snd (run_call k s) = Raise e -> failing c k e.
Proof. intros inp loc rk src c H. exact (call_fails H). Qed.
Print Assumptions C63_calls.

(** What is asked of missing elements fails with a validation error, or as building it fails; it is
    an AttributeError only for what is missing in something else than a section. *)
Theorem C63_missing : forall inp loc rk src c, parse_context inp loc rk src = Ok c -> forall s m e, reach c s ->
  snd (missing_error (A := unit) m s) = Raise e ->
  (exists v x, e = ValidationError x /\ validation_error c v = Ok x) \/ e = KeyError \/ e = TypeError \/ (e = AttributeError /\ o_class (oget s (began_at m)) <> CSection).
Proof. intros inp loc rk src c H. exact (missing_fails H). Qed.
Print Assumptions C63_missing.

(** error(), comment_error(), key_error() and value_error() give an error, a KeyError or a TypeError. *)
Theorem C63_made : forall inp loc rk src c, parse_context inp loc rk src = Ok c -> forall s o m e, reach c s ->
  In (Raise e) [snd (error_of o m s); snd (comment_error_of o m s); snd (key_error_of o m s); snd (value_error_of o m s)] -> e = KeyError \/ e = TypeError.
Proof. intros inp loc rk src c H. exact (made_fails H). Qed.
Print Assumptions C63_made.

(** Reading values, comments and keys fails as documented (SpecCrash: [plain_reading], [as_documented]):
    with a validation error or with what the loader raises.  Only the terminal reporter can stumble, over
    documents with deep copies. *)
Theorem C63_reading : forall inp loc rk src c, parse_context inp loc rk src = Ok c -> c_reporter c <> TerminalReporter \/ no_deep_copies (c_heap c) ->
  forall s k e, reach c s -> subject k < length (s_objs s) -> callable k (o_class (oget s (subject k))) ->
  plain_reading (c_heap c) (o_instr (oget s (subject k))) k -> snd (run_call k s) = Raise e -> as_documented c k e.
Proof. intros inp loc rk src c H HK. exact (reading_fails H HK). Qed.
Print Assumptions C63_reading.

(** Asking for elements fails as documented (SpecCrash: [asks]): with a validation error, or with a
    TypeError for what was read as something else before ([taken]).  This holds for documents all
    sections of which can be shown in reports, and whose links of copied sections end
    ([presentable]; without: C28_wrong_type_refuted, C26_terminates_refuted). *)
Theorem C63_asking : forall inp loc rk src c, parse_context inp loc rk src = Ok c -> c_reporter c <> TerminalReporter \/ no_deep_copies (c_heap c) ->
  presentable (c_heap c) -> forall s k e, reach c s -> subject k < length (s_objs s) -> callable k (o_class (oget s (subject k))) ->
  asks s k -> snd (run_call k s) = Raise e -> (exists v x, e = ValidationError x /\ validation_error c v = Ok x) \/ (e = TypeError /\ taken s k).
Proof. intros inp loc rk src c H HK HG. exact (asking_fails H HK HG). Qed.
Print Assumptions C63_asking.

(** This can be seen from the document: no deep copy contains a section, and elements that reports
    cannot continue from ([bare]) are the last ones of their sections. *)
Theorem C63_presentable : forall inp loc rk src c, parse_context inp loc rk src = Ok c -> no_deep_sections (c_heap c) ->
  (forall e l1 x y l2, n_type (hget (c_heap c) e) = SECTION -> n_elements (hget (c_heap c) e) = l1 ++ x :: y :: l2 -> ~ bare (c_heap c) x) -> presentable (c_heap c).
Proof. exact plain_presentable. Qed.
Print Assumptions C63_presentable.

(** * They happen *)

Example C63_happen : let s := session q_doc q_calls in let a := session q_doc (q_calls ++ [Query (Some KField) 0 (key_named "a") None]) in
  parse_context q_doc en TextReporter None = Ok (ctx_of q_doc) /\ reach (ctx_of q_doc) s /\ reach (ctx_of q_doc) a /\
  snd (run_call (StringKey 0) s) = Raise KeyError /\ snd (run_call (Query (Some KField) 6 (key_named "y") None) s) = Raise TypeError /\
  snd (run_call (RequireElements 0 true) s) = Raise AttributeError /\ is_validation (snd (run_call (Query None 0 (key_named "b") None) s)) = true /\
  (forall j, ends (c_heap (ctx_of q_doc)) j) /\ o_class (oget a 11) = CField /\ snd (run_call (Value text 11 (fun _ => LOther 7) true) a) = Raise (UserExn 7).
Proof.
  split; [exact q_parsed|]. split; [exact q_reach|]. split; [apply session_reach; vm_compute; reflexivity|].
  split; [vm_compute; reflexivity|]. split; [vm_compute; reflexivity|]. split; [vm_compute; reflexivity|]. split; [vm_compute; reflexivity|]. split; [exact q_ends|]. vm_compute. split; reflexivity.
Qed.
(** asking for something missing in the fieldset *)
Example C63_missing_entry : let s := session q_doc q_calls in let m := Missing MKEntry (key_named "q") (PObject 10) in
  snd (run_call (QueryEntry 10 (key_named "q") None) s) = Ok tt /\ snd (entry_query 10 (key_named "q") None s) = Ok (FMissing m) /\
  snd (missing_error (A := unit) m s) = Raise AttributeError /\ o_class (oget s (began_at m)) = CFieldset.
Proof. vm_compute. repeat split. Qed.
Example C63_errors_made : let s := session q_doc q_calls in
  snd (error_of 0 (U "x") s) = Raise KeyError /\ exists x, snd (error_of 6 (U "x") s) = Ok x.
Proof. split; [vm_compute; reflexivity|]. eexists. vm_compute. reflexivity. Qed.
(** reading with a loader that rejects the value; the key of the document cannot be read *)
Example C63_read : let c := ctx_of q_doc in let a := session q_doc (q_calls ++ [Query (Some KField) 0 (key_named "a") None]) in
  let k := Value text 11 (fun _ => LValueError (U "no")) true in
  c_reporter c <> TerminalReporter /\ subject k < length (s_objs a) /\ callable k (o_class (oget a (subject k))) /\ plain_reading (c_heap c) (o_instr (oget a (subject k))) k /\
  is_validation (snd (run_call k a)) = true /\ ~ plain_reading (c_heap c) (o_instr (oget a 0)) (StringKey 0) /\ snd (run_call (StringKey 0) a) = Raise KeyError.
Proof.
  split; [vm_compute; discriminate|]. split; [apply Nat.ltb_lt; vm_compute; reflexivity|]. split; [left; vm_compute; reflexivity|]. split; [exact I|].
  split; [vm_compute; reflexivity|]. split; [intro H; apply H; vm_compute; reflexivity|]. vm_compute. reflexivity.
Qed.
(** asking for too many elements, and for what was read as a fieldset *)
Example C63_asked : let c := ctx_of q_doc in let s := session q_doc q_calls in let k := Query None 0 (key_named "b") None in let k' := Query (Some KField) 6 (key_named "y") None in
  presentable (c_heap c) /\ c_reporter c <> TerminalReporter /\ asks s k /\ asks s k' /\ callable k (o_class (oget s 0)) /\ callable k' (o_class (oget s 6)) /\ 6 < length (s_objs s) /\
  is_validation (snd (run_call k s)) = true /\ snd (run_call k' s) = Raise TypeError.
Proof.
  split; [exact q_presentable|]. split; [vm_compute; discriminate|]. split; [exact I|]. split; [exact I|]. split; [vm_compute; reflexivity|]. split; [vm_compute; reflexivity|].
  split; [apply Nat.ltb_lt; vm_compute; reflexivity|]. split; vm_compute; reflexivity.
Qed.
Example C63_tidy : let h := c_heap (ctx_of q_doc) in
  no_deep_sections h /\ forall e l1 x y l2, n_type (hget h e) = SECTION -> n_elements (hget h e) = l1 ++ x :: y :: l2 -> ~ bare h x.
Proof. exact (conj q_no_deep (tidy_last _ (tidy_all _ q_tidy))). Qed.
