(** AgainExamples: two sessions with the same element. *)
From Verif Require Import Base Types Messages Resolver ResolverIndex ResolverFinal Reporter Errors Context Elements SpecTree SpecResolve SpecRead SpecApi SpecQuery SpecLoad Session SessionRun
  PropParseProofs QueryExamples SpecWhole.

(** [l] extends [k]; the comment is more than one line *)
Definition again_doc : text := U "> a
>   b
f: 1
\ 2
k:
- 1
l < k
- 2
# s < gone
# gone
".
Definition again_short : list call := [Query (Some KField) 0 (key_named "f") None; Query (Some KList) 0 (key_named "l") None].
Definition again_long : list call :=
  [Raw 0; Touch 0; ListElements 0 None; Query (Some KList) 0 (key_named "l") None; Query (Some KField) 0 (key_named "f") None;
   Value text 7 string_loader true; Comment text 7 string_loader true; Print 7].
Definition again_looked : st := MkSt (ctx_of again_doc) [start_obj CElement 1].
Lemma named_by s o cl e : (Nat.ltb o (length (s_objs s)) = true) -> o_class (oget s o) = cl -> o_instr (oget s o) = e -> names s o cl e.
Proof. intros H1 H2 H3. split; [now apply Nat.ltb_lt|now split]. Qed.
Lemma again_sample : parse_context again_doc en TextReporter None = Ok (ctx_of again_doc) /\
  reach (ctx_of again_doc) (session again_doc again_short) /\ reach (ctx_of again_doc) (session again_doc again_long) /\ reach (ctx_of again_doc) again_looked /\
  names (session again_doc again_short) 6 CField 1 /\ names (session again_doc again_long) 7 CField 1 /\ names again_looked 0 CElement 1 /\
  names (session again_doc again_short) 7 CList 4 /\ names (session again_doc again_long) 6 CList 4 /\
  snd (value_of 6 string_loader true (session again_doc again_short)) = Ok (Some (U "1 2")) /\
  snd (value_of 7 string_loader true (session again_doc again_long)) = Ok (Some (U "1 2")) /\
  snd (comment_of 6 string_loader true (session again_doc again_short)) = Ok (Some (U "a
  b")) /\
  snd (comment_of 0 string_loader true again_looked) = Ok (Some (U "a
  b")) /\
  snd (list_values 6 string_loader true (session again_doc again_long)) = Ok [Some (U "1"); Some (U "2")] /\
  snd (list_values 7 string_loader true (session again_doc again_short)) = Ok [Some (U "1"); Some (U "2")].
Proof.
  split; [vm_compute; reflexivity|]. split; [apply session_reach; vm_compute; reflexivity|]. split; [apply session_reach; vm_compute; reflexivity|].
  split; [exists again_looked; split; [apply be_lookup; apply Nat.ltb_lt; vm_compute; reflexivity|constructor]|].
  do 5 (split; [apply named_by; vm_compute; reflexivity|]). do 5 (split; [vm_compute; reflexivity|]). vm_compute. reflexivity.
Qed.
