(** PropAgain: reading through objects, again and elsewhere (C15, C16). *)
From Verif Require Import Base Types Messages Reporter Errors Context Elements SpecTree SpecResolve SpecRead SpecApi SpecQuery SpecLoad Session SessionRun
  QueryExamples AgainProofs AgainExamples.

(** * C15 *)

(** In every state, the value accessors of fields, items and entries that copy nothing pass on the
    joined value. *)
Theorem C15_accessors : forall inp loc rk src c, parse_context inp loc rk src = Ok c ->
  forall s o cl e, reach c s -> names s o cl e -> has_value cl -> n_template (hget (c_heap c) e) = None ->
  exists v, plain_value inp (hget (c_heap c) e) v /\
    forall A (ld : loader A) required, snd (value_of o ld required s) = value_outcome c e ld required v.
Proof. intros inp loc rk src c H. exact (value_joined_object H). Qed.
Print Assumptions C15_accessors.

(** * C16 *)

(** The accessors for the value, comment and key of an element give the same in any two states, and for
    any two objects that stand for the element. *)
Theorem C16_accessors : forall inp loc rk src c, parse_context inp loc rk src = Ok c ->
  forall s s' o o' cl cl' e, reach c s -> reach c s' -> names s o cl e -> names s' o' cl' e -> forall A (ld : loader A) required,
    (has_value cl -> has_value cl' -> snd (value_of o' ld required s') = snd (value_of o ld required s)) /\
    snd (comment_of o' ld required s') = snd (comment_of o ld required s) /\
    snd (key_with o' ld s') = snd (key_with o ld s) /\ snd (string_key o' s') = snd (string_key o s).
Proof. intros inp loc rk src c H. exact (read_again H). Qed.
Print Assumptions C16_accessors.

(** So do the accessors for all values of a list. *)
Theorem C16_list_values : forall inp loc rk src c, parse_context inp loc rk src = Ok c ->
  forall s s' o o' e, reach c s -> reach c s' -> names s o CList e -> names s' o' CList e -> forall A (ld : loader A) required,
    snd (list_values o' ld required s') = snd (list_values o ld required s).
Proof. intros inp loc rk src c H. exact (list_again H). Qed.
Print Assumptions C16_list_values.

(** a short session, a long one and a lookup *)
Example C16_sessions : parse_context again_doc en TextReporter None = Ok (ctx_of again_doc) /\
  reach (ctx_of again_doc) (session again_doc again_short) /\ reach (ctx_of again_doc) (session again_doc again_long) /\ reach (ctx_of again_doc) again_looked /\
  names (session again_doc again_short) 6 CField 1 /\ names (session again_doc again_long) 7 CField 1 /\ names again_looked 0 CElement 1 /\
  names (session again_doc again_short) 7 CList 4 /\ names (session again_doc again_long) 6 CList 4 /\
  snd (value_of 6 string_loader true (session again_doc again_short)) = Ok (Some (U "1 2")) /\
  snd (value_of 7 string_loader true (session again_doc again_long)) = Ok (Some (U "1 2")) /\
  snd (comment_of 6 string_loader true (session again_doc again_short)) = Ok (Some (U "a
  b")) /\
  snd (comment_of 0 string_loader true again_looked) = Ok (Some (U "a
  b")) /\
  snd (list_values 6 string_loader true (session again_doc again_long)) = Ok [Some (U "1"); Some (U "2")] /\
  snd (list_values 7 string_loader true (session again_doc again_short)) = Ok [Some (U "1"); Some (U "2")].
Proof. exact again_sample. Qed.
