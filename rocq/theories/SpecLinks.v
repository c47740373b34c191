(** SpecLinks: which sections the elements of a section may come from (SPEC for C26).  Mentions only
    what the document says. *)
From Coq Require Import Relations.
From Verif Require Import Base Types SpecTree SpecResolve.

(** [i] is merged with [j]: it is a deep copy ('<<') of it, or a section of the same name in
    something that is merged with the section around [j] *)
Inductive merged (h : heap) : nat -> nat -> Prop :=
| mg_copy i j : template_is true h i j -> n_deep_copy (hget h i) = true -> merged h i j
| mg_inner s t i j : merged h s t -> n_parent (hget h i) = Some s -> n_parent (hget h j) = Some t ->
    is_section (hget h i) -> is_section (hget h j) -> n_key (hget h i) = n_key (hget h j) -> merged h i j.

(** [i] takes over elements of [j] *)
Definition draws_on (h : heap) (i j : nat) : Prop := template_is true h i j \/ merged h i j.

(** no section takes over, directly or indirectly, its own elements *)
Definition well_founded_copies (h : heap) : Prop := forall i, ~ clos_trans nat (draws_on h) i i.

(** no deep copy contains a section *)
Definition no_deep_sections (h : heap) : Prop :=
  forall a i, n_deep_copy (hget h a) = true -> n_parent (hget h i) = Some a -> ~ is_section (hget h i).
