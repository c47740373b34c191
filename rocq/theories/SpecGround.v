(** SpecGround: sections that contain or take over one another (SPEC for C27).  Mentions only what the
    document says. *)
From Coq Require Import Relations.
From Verif Require Import Base Types SpecTree SpecResolve SpecLinks.

(** section [a] shows section [b]: it contains it, or takes over elements of it *)
Definition shows (h : heap) (a b : nat) : Prop :=
  draws_on h a b \/ is_section (hget h a) /\ is_section (hget h b) /\ n_parent (hget h b) = Some a.

(** no section shows itself, directly or indirectly *)
Definition grounded (h : heap) : Prop := forall i, ~ clos_trans nat (shows h) i i.
