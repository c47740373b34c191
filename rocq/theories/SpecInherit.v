(** SpecInherit: what copies are and which comments they have (SPEC for C48, C49).  Mentions only
    data. *)
From Coq Require Import Relations.
From Verif Require Import Base Types SpecTree SpecResolve.

(** the comment lines of [i]: its own, or if it has none those of what it copies *)
Inductive commented (sec : bool) (h : heap) : nat -> option (list leaf) -> Prop :=
| cm_own i : n_template (hget h i) = None \/ n_comments (hget h i) <> None -> commented sec h i (n_comments (hget h i))
| cm_template i t v : n_comments (hget h i) = None -> template_is sec h i t -> commented sec h t v -> commented sec h i v.

(** no section around [i] is a deep copy *)
Definition no_deep_around (h : heap) (i : nat) : Prop := forall a, encloses h a i -> n_deep_copy (hget h a) = false.
(** neither around [i] nor around the sections it copies *)
Definition outside_deep (h : heap) (i : nat) : Prop :=
  forall j, clos_refl_trans nat (template_is true h) i j -> no_deep_around h j.
