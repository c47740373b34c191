(** SpecRequire: the flag that makes absence an error (SPEC for C34). *)
From Verif Require Import Base Types Messages Elements Session SpecTree SpecRead SpecApi SpecTouch.

(** [y] is [o], or [o] is its parent, or the parent of its parent, ... *)
Inductive inside (s : st) (o : nat) : nat -> Prop :=
| in_self : inside s o o
| in_up y p : o_parent (oget s y) = Some p -> inside s o p -> inside s o y.

(** all sections and fieldsets in or below section object [o] were read before *)
Inductive ready (h : heap) (s : st) : nat -> Prop :=
| rd_listed o l : o_children (oget s o) = Some l ->
    (forall e, In e l -> n_type (hget h (o_instr (oget s e))) = SECTION \/ n_type (hget h (o_instr (oget s e))) = FIELDSET -> exists k y, read_as s e k y) ->
    (forall e y, In e l -> read_as s e KSection y -> ready h s y) -> ready h s o
| rd_unlisted o L : o_children (oget s o) = None -> element_list h (o_instr (oget s o)) L ->
    (forall i, In i L -> n_type (hget h i) <> SECTION /\ n_type (hget h i) <> FIELDSET) -> ready h s o.

(** a session without calls of all_elements_required() and all_entries_required() *)
Definition sets_flags (c : call) : Prop := match c with RequireElements _ _ | RequireEntries _ _ => True | _ => False end.
Inductive goes_on_plainly : st -> st -> Prop :=
| gp_nil s : goes_on_plainly s s
| gp_call s c s' : subject c < length (s_objs s) -> callable c (o_class (oget s (subject c))) -> ~ sets_flags c ->
    goes_on_plainly (fst (run_call c s)) s' -> goes_on_plainly s s'.

(** [y] is a section or fieldset object inside [o] in [s']; fieldset objects for elements written
    without entries count only if they were handed out after [s] *)
Definition reached (h : heap) (s s' : st) (o y : nat) : Prop :=
  y < length (s_objs s') /\ inside s' o y /\
  (o_class (oget s' y) = CSection \/
   o_class (oget s' y) = CFieldset /\ (n_type (hget h (o_instr (oget s' y))) = FIELDSET \/ length (s_objs s) <= y)).
