(** SpecRenamed: programs for documents with other keys and other values (SPEC for C61). *)
From Verif Require Import Base Types Messages Reporter Errors Context Elements Session Faults SpecQuery SpecProgram SpecRename.

(** missing elements with renamed keys *)
Fixpoint missing_as (r : text -> text) (m : missing) : missing :=
  match m with Missing k key p => Missing k (option_map r key) (match p with PObject o => PObject o | PMissing m' => PMissing (missing_as r m') end) end.
Definition found_as (r : text -> text) (f : found) : found :=
  match f with FObj o => FObj o | FMissing m => FMissing (missing_as r m) | FNone => FNone end.
(** complaints likewise *)
Definition complaint_as (r : text -> text) (v : complaint) : complaint :=
  match v with
  | NoElement k p q => NoElement (option_map r k) p q
  | TooMany k es q => TooMany (option_map r k) es q
  | OtherKind k e q => OtherKind (option_map r k) e q
  | _ => v
  end.

(** the results of two loaders *)
Inductive loaded_alike {A A'} (R : A -> A' -> Prop) : lres A -> lres A' -> Prop :=
| la_value a a' : R a a' -> loaded_alike R (LOk a) (LOk a')
| la_error m : loaded_alike R (LValueError m) (LValueError m)
| la_other n : loaded_alike R (LOther n) (LOther n).
Inductive maybe {A A'} (R : A -> A' -> Prop) : option A -> option A' -> Prop :=
| mb_some a a' : R a a' -> maybe R (Some a) (Some a')
| mb_none : maybe R None None.

Section Two.
  Context (r q o : text -> text).
  (** the same key under either name *)
  Definition names (k k' : text) : Prop := r k = q k'.
  Definition asks (k k' : option text) : Prop := option_map r k = option_map q k'.
  Definition filters (k k' : option (list text)) : Prop := option_map (map r) k = option_map (map q) k'.
  (** texts that are observed to be the same *)
  Definition reads (v v' : text) : Prop := o v = o v'.

  (** Two programs making the same calls, under either name of the keys.  What they get back is related; it
      may be used in any way that keeps the calls the same.  (What [repr] prints may differ.) *)
  Inductive paired : forall {A A' : Type}, (A -> A' -> Prop) -> sM A -> sM A' -> Prop :=
  | d_ret A A' (R : A -> A' -> Prop) a a' : R a a' -> paired R (ret a) (ret a')
  | d_raise A A' (R : A -> A' -> Prop) e : paired R (raise (UserExn e)) (raise (UserExn e))
  | d_bind A A' B B' (R : A -> A' -> Prop) (Q : B -> B' -> Prop) m m' f f' : paired R m m' -> (forall a a', R a a' -> paired Q (f a) (f' a')) -> paired Q (mbind m f) (mbind m' f')
  | d_attempt A A' (R : A -> A' -> Prop) m m' : paired R m m' -> paired (maybe R) (attempt m) (attempt m')
  | d_query what x key key' required : asks key key' -> paired (fun f f' => found_as r f = found_as q f') (query what x key required) (query what x key' required)
  | d_elements x key key' : asks key key' -> paired eq (section_elements x key) (section_elements x key')
  | d_plural k x key key' : asks key key' -> paired eq (plural k x key) (plural k x key')
  | d_yield k e : paired eq (to_kind k e) (to_kind k e)
  | d_entry x key key' required : asks key key' -> paired (fun f f' => found_as r f = found_as q f') (entry_query x key required) (entry_query x key' required)
  | d_entries x key key' : asks key key' -> paired eq (fieldset_entries x key) (fieldset_entries x key')
  | d_items x : paired eq (list_items x) (list_items x)
  | d_length x : paired eq (list_length x) (list_length x)
  | d_values A A' (R : A -> A' -> Prop) x (ld : loader A) (ld' : loader A') required : (forall t t', reads t t' -> loaded_alike R (ld t) (ld' t')) ->
      paired (Forall2 (maybe R)) (list_values x ld required) (list_values x ld' required)
  | d_value A A' (R : A -> A' -> Prop) x (ld : loader A) (ld' : loader A') required : (forall t t', reads t t' -> loaded_alike R (ld t) (ld' t')) ->
      paired (maybe R) (value_of x ld required) (value_of x ld' required)
  | d_comment A A' (R : A -> A' -> Prop) x (ld : loader A) (ld' : loader A') required : (forall t, loaded_alike R (ld t) (ld' t)) ->
      paired (maybe R) (comment_of x ld required) (comment_of x ld' required)
  | d_key A A' (R : A -> A' -> Prop) x (ld : loader A) (ld' : loader A') : (forall k k', names k k' -> loaded_alike R (ld k) (ld' k')) ->
      paired R (key_with x ld) (key_with x ld')
  | d_string_key x : paired names (string_key x) (string_key x)
  | d_raw x : paired (fun y y' => raw_as r o y = raw_as q o y') (raw_of x) (raw_of x)
  | d_missing_query what m m' key key' required : missing_as r m = missing_as q m' -> asks key key' ->
      paired (fun f f' => found_as r f = found_as q f') (missing_query what m key required) (missing_query what m' key' required)
  | d_missing_entry m m' key key' required : missing_as r m = missing_as q m' -> asks key key' ->
      paired (fun f f' => found_as r f = found_as q f') (missing_entry m key required) (missing_entry m' key' required)
  | d_missing_value A A' (R : option A -> option A' -> Prop) m m' required : missing_as r m = missing_as q m' -> R None None -> paired R (missing_value m required) (missing_value m' required)
  | d_missing_comment A A' (R : option A -> option A' -> Prop) m m' required : missing_as r m = missing_as q m' -> R None None -> paired R (missing_comment m required) (missing_comment m' required)
  | d_missing_key A A' (R : A -> A' -> Prop) m m' : missing_as r m = missing_as q m' -> paired R (missing_key m) (missing_key m')
  | d_assert x m only only' skip skip' : filters only only' -> filters skip skip' -> paired eq (assert_all_touched x m only skip) (assert_all_touched x m only' skip')
  | d_assert_entries x m only only' skip skip' : filters only only' -> filters skip skip' ->
      paired eq (fieldset_assert_all_touched x m only skip) (fieldset_assert_all_touched x m only' skip')
  | d_touch x : paired eq (touch x) (touch x)
  | d_require x b : paired eq (all_elements_required x b) (all_elements_required x b)
  | d_require_entries x b : paired eq (all_entries_required x b) (all_entries_required x b)
  | d_parent x : paired eq (parent_of x) (parent_of x)
  | d_print x : paired (fun _ _ => True) (print_of x) (print_of x)
  | d_error A A' (R : A -> A' -> Prop) x message : paired R (@throw A (error_of x message)) (@throw A' (error_of x message))
  | d_comment_error A A' (R : A -> A' -> Prop) x message : paired R (@throw A (comment_error_of x message)) (@throw A' (comment_error_of x message))
  | d_key_error A A' (R : A -> A' -> Prop) x message : paired R (@throw A (key_error_of x message)) (@throw A' (key_error_of x message))
  | d_value_error A A' (R : A -> A' -> Prop) x message : paired R (@throw A (value_error_of x message)) (@throw A' (value_error_of x message)).

  (** related results, the same exception, or the same complaint about the same elements *)
  Inductive outcomes (c1 c2 : ctx) {A A'} (R : A -> A' -> Prop) : res A -> res A' -> Prop :=
  | oc_result a a' : R a a' -> outcomes c1 c2 R (Ok a) (Ok a')
  | oc_exception e : outcomes c1 c2 R (Raise e) (Raise e)
  | oc_complaint v v' : complaint_as r v = complaint_as q v' -> outcomes c1 c2 R (raised (validation_error c1 v)) (raised (validation_error c2 v')).
End Two.
