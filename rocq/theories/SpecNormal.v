(** SpecNormal: copied sections without sections (SPEC for C50).  Mentions only data. *)
From Verif Require Import Base Types SpecTree SpecApi.

(** where a section extends one that contains a section, it has an element of that name itself *)
Definition takes_no_sections (h : heap) : Prop :=
  forall e t x, is_section (hget h e) -> extends h e t -> In x (own_elements h t) -> is_section (hget h x) ->
  exists y, In y (own_elements h e) /\ n_key (hget h y) = n_key (hget h x).
