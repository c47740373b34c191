(** QueryExamples: concrete sessions for PropQuery. *)
From Verif Require Import Base Types Messages Reporter Errors Context Elements SpecTree SpecRead SpecApi SpecQuery SpecLoad Session SessionRun.

Definition key_named (x : string) : option text := Some (U x).
(** a document with elements of the same key and an extended section *)
Definition q_doc : text := U "a: 1
b:
b:
# s
x: 1
z: 3
# t < s
x: 2
y:".
(** some queries on it: the section t is object 6, its element y was read as a fieldset (object 10) *)
Definition q_calls : list call :=
  [Query (Some KSection) 0 (key_named "t") None; Query (Some KFieldset) 6 (key_named "y") None; Query (Some KField) 0 (key_named "nope") (Some true)].

Lemma q_parsed : parse_context q_doc en TextReporter None = Ok (ctx_of q_doc). Proof. vm_compute. reflexivity. Qed.
Lemma q_ends e : ends (c_heap (ctx_of q_doc)) e. Proof. apply all_end_true. vm_compute. reflexivity. Qed.
Lemma q_reach : reach (ctx_of q_doc) (session q_doc q_calls). Proof. apply session_reach. vm_compute. reflexivity. Qed.
Lemma q_names : names (session q_doc q_calls) 6 CSection 7.
Proof. split; [apply Nat.ltb_lt; vm_compute; reflexivity|]. split; vm_compute; reflexivity. Qed.
Lemma q_list : element_list (c_heap (ctx_of q_doc)) 7 [8; 9; 6].
Proof.
  replace [8; 9; 6] with (own_elements (c_heap (ctx_of q_doc)) 7 ++ [6]) by (vm_compute; reflexivity).
  apply (li_extend _ 7 4 (own_elements (c_heap (ctx_of q_doc)) 4) [6]); [split; vm_compute; reflexivity| |].
  - apply (li_own _ 4). split; vm_compute; reflexivity.
  - replace (own_elements (c_heap (ctx_of q_doc)) 4) with [5; 6] by (vm_compute; reflexivity). apply wo_drop; [exists 8; split; [vm_compute; auto|vm_compute; reflexivity]|]. apply wo_keep; [|constructor].
    intros (y & Hy & Hk). vm_compute in Hy. destruct Hy as [<-|[<-|[]]]; vm_compute in Hk; discriminate.
Qed.

Definition is_validation {A} (v : res A) : bool := match v with Raise (ValidationError _) => true | _ => false end.

Lemma q_answers : let s := session q_doc q_calls in
  (exists y, snd (query (Some KField) 6 (key_named "z") None s) = Ok (FObj y)) /\
  snd (query (Some KField) 6 (key_named "y") None s) = Raise TypeError /\
  is_validation (snd (query (Some KList) 6 (key_named "x") None s)) = true /\
  is_validation (snd (query None 0 (key_named "b") None s)) = true /\
  snd (query (Some KList) 6 (key_named "q") None s) = Ok (FMissing (Missing MKList (key_named "q") (PObject 6))) /\
  snd (query (Some KList) 6 (key_named "q") (Some false) s) = Ok FNone /\
  is_validation (snd (query (Some KList) 6 (key_named "q") (Some true) s)) = true.
Proof.
  split; [eexists; vm_compute; reflexivity|]. repeat (split; [vm_compute; reflexivity|]). vm_compute. reflexivity.
Qed.

(** an error report that can not be built *)
Definition broken_doc : text := U "# s
a:
b: x".
Lemma broken_parsed : parse_context broken_doc en TextReporter None = Ok (ctx_of broken_doc). Proof. vm_compute. reflexivity. Qed.
Lemma broken_query : snd (query (Some KField) 0 (key_named "s") (Some true) (begin broken_doc)) = Raise TypeError /\
  filter (keyed (c_heap (ctx_of broken_doc)) (key_named "s")) (own_elements (c_heap (ctx_of broken_doc)) 0) = [1] /\
  n_type (hget (c_heap (ctx_of broken_doc)) 1) = SECTION /\ n_mirror (hget (c_heap (ctx_of broken_doc)) 0) = None /\ n_extend (hget (c_heap (ctx_of broken_doc)) 0) = None.
Proof. repeat (split; [vm_compute; reflexivity|]). vm_compute. reflexivity. Qed.
Lemma broken_plural : snd (plural KField 0 (key_named "s") (begin broken_doc)) = Raise TypeError.
Proof. vm_compute. reflexivity. Qed.

(** lists, entries *)
Definition m_doc : text := U "> note
l:
- 1
-
- 3
m < l
- 4
f:
p = 1
q = 2
p = 3".
Definition m_calls : list call :=
  [Query (Some KList) 0 (key_named "m") None; Query (Some KFieldset) 0 (key_named "f") None; ListOf KField 0 (key_named "l"); Query (Some KList) 0 (key_named "l") None; ListItems 6].
Lemma m_parsed : parse_context m_doc en TextReporter None = Ok (ctx_of m_doc). Proof. vm_compute. reflexivity. Qed.
Lemma m_ends e : ends (c_heap (ctx_of m_doc)) e. Proof. apply all_end_true. vm_compute. reflexivity. Qed.
Lemma m_reach : reach (ctx_of m_doc) (session m_doc m_calls). Proof. apply session_reach. vm_compute. reflexivity. Qed.
Lemma m_names : names (session m_doc m_calls) 4 CList 5 /\ names (session m_doc m_calls) 5 CFieldset 7 /\ names (session m_doc m_calls) 7 CItem 2 /\ names (session m_doc m_calls) 6 CList 1.
Proof. repeat split; try (apply Nat.ltb_lt); vm_compute; reflexivity. Qed.
Lemma m_entries : entry_list (c_heap (ctx_of m_doc)) 7 [8; 9; 10].
Proof. replace [8; 9; 10] with (own_entries (c_heap (ctx_of m_doc)) 7) by (vm_compute; reflexivity). apply le_own. split; vm_compute; reflexivity. Qed.
Lemma m_items : item_list (c_heap (ctx_of m_doc)) 5 [2; 3; 4; 6].
Proof.
  replace [2; 3; 4; 6] with (own_items (c_heap (ctx_of m_doc)) 1 ++ own_items (c_heap (ctx_of m_doc)) 5) by (vm_compute; reflexivity).
  apply (lt_extend _ 5 1); [split; vm_compute; reflexivity|]. apply lt_own. split; vm_compute; reflexivity.
Qed.
Lemma m_answers : let s := session m_doc m_calls in
  is_validation (snd (entry_query 5 (key_named "p") (Some true) s)) = true /\
  (exists y, snd (entry_query 5 (key_named "q") (Some true) s) = Ok (FObj y)) /\
  (exists a b, snd (fieldset_entries 5 (key_named "p") s) = Ok [a; b]) /\
  (exists w x y z, snd (list_items 4 s) = Ok [w; x; y; z]).
Proof.
  split; [vm_compute; reflexivity|]. split; [eexists; vm_compute; reflexivity|]. split; [do 2 eexists; vm_compute; reflexivity|]. do 4 eexists; vm_compute; reflexivity.
Qed.
Definition bad_loader : loader text := fun _ => LValueError (U "no").
Lemma m_loads : let s := session m_doc m_calls in
  snd (list_values 4 string_loader false s) = Ok [Some (U "1"); None; Some (U "3"); Some (U "4")] /\
  is_validation (snd (list_values 4 string_loader true s)) = true /\
  is_validation (snd (value_of 7 bad_loader true s)) = true /\
  snd (comment_of 6 string_loader true s) = Ok (Some (U "note")) /\
  snd (key_with 4 string_loader s) = Ok (U "m").
Proof. repeat (split; [vm_compute; reflexivity|]). vm_compute. reflexivity. Qed.
Lemma item_key_fails : let s := session m_doc m_calls in
  snd (key_with 7 string_loader s) = Ok (U "l") /\ snd (key_with 7 bad_loader s) = Raise KeyError.
Proof. split; vm_compute; reflexivity. Qed.
Definition hollow_doc : text := U ">
a: 1".
Lemma hollow_fails : let s := session hollow_doc [Query (Some KField) 0 (key_named "a") None] in
  parse_context hollow_doc en TextReporter None = Ok (ctx_of hollow_doc) /\
  reach (ctx_of hollow_doc) s /\ names s 2 CField 1 /\ snd (comment_of 2 string_loader false s) = Raise KeyError.
Proof.
  split; [vm_compute; reflexivity|]. split; [apply session_reach; vm_compute; reflexivity|]. split; [|vm_compute; reflexivity].
  split; [apply Nat.ltb_lt; vm_compute; reflexivity|]. split; vm_compute; reflexivity.
Qed.
(** missing elements *)
Lemma missing_chain : exists m1 m2 m3,
  snd (query (Some KSection) 0 (key_named "gone") None (begin q_doc)) = Ok (FMissing m1) /\
  snd (missing_query (Some KFieldset) m1 (key_named "deeper") None (begin q_doc)) = Ok (FMissing m2) /\
  snd (missing_entry m2 (key_named "deepest") None (begin q_doc)) = Ok (FMissing m3) /\
  outermost m3 = (MKSection, key_named "gone", 0) /\ is_validation (snd (@missing_value text m3 true (begin q_doc))) = true.
Proof.
  do 3 eexists. split; [vm_compute; reflexivity|]. split; [vm_compute; reflexivity|]. split; [vm_compute; reflexivity|]. split; vm_compute; reflexivity.
Qed.
Lemma missing_values : exists m, snd (query (Some KList) 0 (key_named "gone") None (begin q_doc)) = Ok (FMissing m) /\
  snd (@missing_list_values text m true (begin q_doc)) = Ok [].
Proof. eexists. split; vm_compute; reflexivity. Qed.
Lemma q_begin : reach (ctx_of q_doc) (begin q_doc). Proof. exists (begin q_doc). split; constructor. Qed.
Lemma wrong_type_breaks : exists inp c s key, parse_context inp en TextReporter None = Ok c /\ reach c s /\ names s 0 CSection 0 /\
  (exists x, element_list (c_heap c) 0 [x] /\ filter (keyed (c_heap c) key) [x] = [x] /\ readable (n_type (hget (c_heap c) x)) KField = false) /\
  snd (query (Some KField) 0 key (Some true) s) = Raise TypeError.
Proof.
  exists broken_doc, (ctx_of broken_doc), (begin broken_doc), (key_named "s"). split; [exact broken_parsed|]. split; [exists (begin broken_doc); split; constructor|].
  split; [split; [cbn; lia|split; reflexivity]|]. split; [|vm_compute; reflexivity]. exists 1. split; [|split; vm_compute; reflexivity].
  replace [1] with (own_elements (c_heap (ctx_of broken_doc)) 0) by (vm_compute; reflexivity). apply li_own. split; vm_compute; reflexivity.
Qed.
Lemma missing_values_wrong : exists inp s m, reach (ctx_of inp) s /\
  snd (query (Some KList) 0 (key_named "gone") None s) = Ok (FMissing m) /\ snd (@missing_list_values text m true s) = Ok [].
Proof. exists q_doc, (begin q_doc). eexists. split; [exact q_begin|]. split; vm_compute; reflexivity. Qed.
Lemma missing_optional m s : (forall what key, missing_query what m key (Some false) s = (s, Ok FNone)) /\
  (forall key, missing_entry m key (Some false) s = (s, Ok FNone)) /\ (forall A, @missing_value A m false s = (s, Ok None)) /\
  (forall A, @missing_comment A m false s = (s, Ok None)) /\ (forall A, @missing_list_values A m false s = (s, Ok [])).
Proof. repeat split; intros; reflexivity. Qed.
Lemma yield_session : let s := session q_doc q_calls in names s 2 CSectionElement 2 /\
  exists s1, to_kind KList 2 s = (s1, Ok 11) /\ goes_on s1 (run_calls [Query None 0 (key_named "a") None; Yield KField 2; Touch 0] s1) /\
    snd (to_kind KEmpty 2 s1) = Raise TypeError.
Proof.
  split; [split; [apply Nat.ltb_lt; vm_compute; reflexivity|split; vm_compute; reflexivity]|].
  exists (fst (to_kind KList 2 (session q_doc q_calls))). split; [vm_compute; reflexivity|]. split; [|vm_compute; reflexivity]. apply good_goes. vm_compute. reflexivity.
Qed.
Lemma item_key_wrong : exists inp s o e, reach (ctx_of inp) s /\ names s o CItem e /\
  snd (key_with o string_loader s) = Ok (U "l") /\ snd (key_with o bad_loader s) = Raise KeyError.
Proof. exists m_doc, (session m_doc m_calls), 7, 2. split; [exact m_reach|]. split; [apply m_names|exact item_key_fails]. Qed.
Lemma hollow_wrong : exists inp s o e, reach (ctx_of inp) s /\ names s o CField e /\ snd (comment_of o string_loader false s) = Raise KeyError.
Proof. exists hollow_doc. eexists. exists 2, 1. apply hollow_fails. Qed.
Lemma errors_session : reach (ctx_of m_doc) (session m_doc m_calls) /\ names (session m_doc m_calls) 4 CList 5 /\
  s_ctx (fst (run_call (Values text 4 string_loader false) (session m_doc m_calls))) <> ctx_of m_doc.
Proof.
  split; [exact m_reach|]. split; [apply m_names|]. intro H. apply (f_equal c_heap) in H. revert H.
  assert (E : map n_cvalue (c_heap (s_ctx (fst (run_call (Values text 4 string_loader false) (session m_doc m_calls))))) <> map n_cvalue (c_heap (ctx_of m_doc))) by (vm_compute; discriminate).
  intro H. apply E. now rewrite H.
Qed.
Lemma wrong_plural_breaks : exists inp c s key, parse_context inp en TextReporter None = Ok c /\ reach c s /\ names s 0 CSection 0 /\
  (exists x, element_list (c_heap c) 0 [x] /\ filter (keyed (c_heap c) key) [x] = [x] /\ readable (n_type (hget (c_heap c) x)) KField = false) /\
  snd (plural KField 0 key s) = Raise TypeError.
Proof.
  exists broken_doc, (ctx_of broken_doc), (begin broken_doc), (key_named "s"). split; [exact broken_parsed|]. split; [exists (begin broken_doc); split; constructor|].
  split; [split; [cbn; lia|split; reflexivity]|]. split; [|vm_compute; reflexivity]. exists 1. split; [|split; vm_compute; reflexivity].
  replace [1] with (own_elements (c_heap (ctx_of broken_doc)) 0) by (vm_compute; reflexivity). apply li_own. split; vm_compute; reflexivity.
Qed.
