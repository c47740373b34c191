(** SpecStay: what programs hold in their hands stays what it is (SPEC for C64). *)
From Verif Require Import Base Types Messages Reporter Errors Context Elements.

(** two records of an instruction differ only in remembered answers *)
Definition same_instruction (n m : node) : Prop :=
  n_type n = n_type m /\ n_line n = n_line m /\ n_ranges n = n_ranges m /\ n_key n = n_key m /\ n_value n = n_value m /\ n_comments n = n_comments m /\
  n_parent n = n_parent m /\ n_elements n = n_elements m /\ n_items n = n_items m /\ n_entries n = n_entries m /\ n_conts n = n_conts m /\ n_lines n = n_lines m /\
  n_end n = n_end m /\ n_template n = n_template m /\ n_deep_copy n = n_deep_copy m /\ n_deep_resolve n = n_deep_resolve m /\ n_copy n = n_copy m /\ n_mirror n = n_mirror m /\ n_extend n = n_extend m.

(** object [o] of state [s] is still there in state [s'], for the same instruction and below the same
    object, with the members it had been asked for, read as what it had been read as; what was used
    stays used *)
Definition remains (s s' : st) (o : nat) : Prop :=
  let x := oget s o in let y := oget s' o in
  o < length (s_objs s') /\ o_class y = o_class x /\ o_instr y = o_instr x /\ o_parent y = o_parent x /\
  (o_touched x = true -> o_touched y = true) /\ (forall l, o_children x = Some l -> o_children y = Some l) /\
  forall k z, yield_slot k x = Some z -> yield_slot k y = Some z.
