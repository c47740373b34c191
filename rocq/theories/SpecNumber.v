(** SpecNumber: decimal numbers (SPEC for C43 and C51). *)
From Verif Require Import Base.

(** [t] are the decimal digits of [n], without leading zeros *)
Definition digit (c : N) : Prop := (48 <= c <= 57)%N.
Fixpoint digits_value (t : text) (n : nat) : nat :=
  match t with [] => n | c :: t' => digits_value t' (10 * n + N.to_nat (c - 48)) end.
Definition decimal (n : nat) (t : text) : Prop :=
  Forall digit t /\ digits_value t 0 = n /\ (exists c t', t = c :: t' /\ (c = 48%N -> t' = [])).
