(** SpecProgram: programs that use a document, and when they see the same (SPEC for C58). *)
From Verif Require Import Base Types Messages Reporter Errors Context Elements Session Faults SpecQuery.

(** go on after an exception, without looking at it *)
Definition attempt {A} (m : sM A) : sM (option A) :=
  fun s => (fst (m s), Ok (match snd (m s) with Ok a => Some a | Raise _ => None end)).
(** [raise element.error(message)] and the like *)
Definition throw {A} (e : sM eno_error) : sM A := let! x := e in raise (ValidationError x).

(** Programs: any calls to objects, in any order, each depending on the results of earlier ones.
    Objects are referred to by number; a program gets them from its calls. *)
Inductive program : forall {A : Type}, sM A -> Prop :=
| p_ret A (a : A) : program (ret a)
| p_raise A e : program (@raise st A (UserExn e))
| p_bind A B (m : sM A) (f : A -> sM B) : program m -> (forall a, program (f a)) -> program (mbind m f)
| p_attempt A (m : sM A) : program m -> program (attempt m)
| p_query what o key required : program (query what o key required)
| p_elements o key : program (section_elements o key)
| p_plural k o key : program (plural k o key)
| p_yield k e : program (to_kind k e)
| p_entry o key required : program (entry_query o key required)
| p_entries o key : program (fieldset_entries o key)
| p_items o : program (list_items o)
| p_length o : program (list_length o)
| p_values A o (ld : loader A) required : program (list_values o ld required)
| p_value A o (ld : loader A) required : program (value_of o ld required)
| p_comment A o (ld : loader A) required : program (comment_of o ld required)
| p_key A o (ld : loader A) : program (key_with o ld)
| p_string_key o : program (string_key o)
| p_raw o : program (raw_of o)
| p_missing_query what m key required : program (missing_query what m key required)
| p_missing_entry m key required : program (missing_entry m key required)
| p_missing_value A m required : program (@missing_value A m required)
| p_missing_comment A m required : program (@missing_comment A m required)
| p_missing_key A m : program (@missing_key A m)
| p_missing_values A m required : program (@missing_list_values A m required)
| p_assert o m only skip : program (assert_all_touched o m only skip)
| p_assert_entries o m only skip : program (fieldset_assert_all_touched o m only skip)
| p_touch o : program (touch o)
| p_require o b : program (all_elements_required o b)
| p_require_entries o b : program (all_entries_required o b)
| p_parent o : program (parent_of o)
| p_print o : program (print_of o)
| p_error A o message : program (@throw A (error_of o message))
| p_comment_error A o message : program (@throw A (comment_error_of o message))
| p_key_error A o message : program (@throw A (key_error_of o message))
| p_value_error A o message : program (@throw A (value_error_of o message)).

(** The same outcome in documents [c1] and [c2]: the same result, the same exception, or the same complaint
    about the same elements (numbered in the order of the document), as reported for each document. *)
Inductive same_outcome (c1 c2 : ctx) {A} : res A -> res A -> Prop :=
| so_result a : same_outcome c1 c2 (Ok a) (Ok a)
| so_exception e : same_outcome c1 c2 (Raise e) (Raise e)
| so_complaint v : same_outcome c1 c2 (raised (validation_error c1 v)) (raised (validation_error c2 v)).

(** a program begins with what [parse] returned, or with what [lookup] found *)
Definition opened (c : ctx) (i : option nat) : st :=
  MkSt c [match i with None => start_obj CSection 0 | Some e => start_obj CElement e end].
