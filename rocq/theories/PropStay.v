(** PropStay: PROPERTY C64 (what programs hold in their hands stays what it is).  SpecStay:
    [same_instruction], [remains].  [goes_on s s']: any further calls lead from [s] to [s']. *)
From Verif Require Import Base Types Messages Reporter Errors Context Elements SpecTree SpecRead SpecApi SpecQuery Session SessionRun QueryExamples SpecStay StayProofs.

(** No call changes the document. *)
Theorem C64_document : forall inp loc rk src c, parse_context inp loc rk src = Ok c -> forall s, reach c s ->
  c_input (s_ctx s) = c_input c /\ c_locale (s_ctx s) = c_locale c /\ c_reporter (s_ctx s) = c_reporter c /\ c_source (s_ctx s) = c_source c /\
  c_meta (s_ctx s) = c_meta c /\ c_line_count (s_ctx s) = c_line_count c /\ length (c_heap (s_ctx s)) = length (c_heap c) /\
  forall i, same_instruction (hget (c_heap (s_ctx s)) i) (hget (c_heap c) i).
Proof. intros inp loc rk src c H. exact (document_stays H). Qed.
Print Assumptions C64_document.

(** Objects stay what they are, whatever is called. *)
Theorem C64_objects : forall inp loc rk src c, parse_context inp loc rk src = Ok c -> forall s s' o, reach c s -> goes_on s s' -> o < length (s_objs s) -> remains s s' o.
Proof. intros inp loc rk src c H. exact (objects_remain H). Qed.
Print Assumptions C64_objects.

(** Below an object there is one object of a class for an instruction, however it was asked for. *)
Theorem C64_one_object : forall inp loc rk src c, parse_context inp loc rk src = Ok c -> forall s o1 o2 p, reach c s ->
  o1 < length (s_objs s) -> o2 < length (s_objs s) -> ends (c_heap c) (o_instr (oget s p)) ->
  o_parent (oget s o1) = Some p -> o_parent (oget s o2) = Some p -> o_class (oget s o1) = o_class (oget s o2) -> o_instr (oget s o1) = o_instr (oget s o2) -> o1 = o2.
Proof. intros inp loc rk src c H. exact (one_object H). Qed.
Print Assumptions C64_one_object.

(** a program goes on after an exception *)
Example C64_session : let s := session q_doc q_calls in let k := Query (Some KField) 6 (key_named "y") None in let s' := fst (run_call k s) in
  parse_context q_doc en TextReporter None = Ok (ctx_of q_doc) /\ reach (ctx_of q_doc) s /\ goes_on s s' /\ snd (run_call k s) = Raise TypeError /\
  length (s_objs s) = 11 /\ o_children (oget s 6) = Some [7; 8; 9] /\ yield_slot KFieldset (oget s 8) = Some 10.
Proof.
  split; [exact q_parsed|]. split; [exact q_reach|]. split; [|vm_compute; repeat split].
  refine (go_call _ (Query (Some KField) 6 (key_named "y") None) _ _ _ (go_nil _)); [apply Nat.ltb_lt; vm_compute; reflexivity|vm_compute; reflexivity].
Qed.
(** the element z is seen through two sections: below each there is an object for it; and answers are
    remembered in the document *)
Example C64_two_objects : let s := session q_doc (q_calls ++ [Query (Some KSection) 0 (key_named "s") None; ListOf KField 11 None; Query (Some KField) 6 (key_named "z") None]) in
  let s' := fst (run_call (Value text 16 (fun t => LOk t) true) s) in
  reach (ctx_of q_doc) s /\ (forall e, ends (c_heap (ctx_of q_doc)) e) /\ map (o_instr) [oget s 9; oget s 13] = [6; 6] /\ map (o_class) [oget s 9; oget s 13] = [CSectionElement; CSectionElement] /\
  map (o_parent) [oget s 9; oget s 13] = [Some 6; Some 11] /\ n_cvalue (hget (c_heap (s_ctx s)) 6) = None /\ n_cvalue (hget (c_heap (s_ctx s')) 6) = Some (Some (U "3")).
Proof. split; [apply session_reach; vm_compute; reflexivity|]. split; [exact q_ends|]. vm_compute. repeat split. Qed.
