(** SpecMerge: which section each section takes elements from, deep copies included (SPEC for C25).
    Mentions only what the document says. *)
From Verif Require Import Base Types SpecTree SpecResolve SpecRead SpecApi.

(** [i] is a subsection of [p], and nothing else in [p] has its name *)
Definition sole (h : heap) (p i : nat) : Prop :=
  exists l1 l2, n_elements (hget h p) = l1 ++ i :: l2 /\ is_section (hget h i) /\
    forall x, In x (l1 ++ l2) -> n_key (hget h x) <> n_key (hget h i).

(** subsections [i] of [s] and [j] of [t] of one name that a merge of [s] with [t] pairs *)
Definition partner (h : heap) (s t i j : nat) : Prop :=
  sole h s i /\ sole h t j /\ n_key (hget h i) = n_key (hget h j).

(** merging [s] with [t] pairs [i] with [j] *)
Inductive pairs (h : heap) : nat -> nat -> nat -> nat -> Prop :=
| pa_self s t : pairs h s t s t
| pa_inner s t a b i j : partner h s t a b -> pairs h a b i j -> pairs h s t i j.

(** the copy [a] of [u] gives [i] the elements of [j]: only itself if it is written '<', all that the
    merge pairs if it is written '<<' *)
Definition gives (h : heap) (a u i j : nat) : Prop :=
  template_is true h a u /\ (if n_deep_copy (hget h a) then pairs h a u i j else i = a /\ j = u).

(** nothing gives [e] elements *)
Definition on_its_own (h : heap) (e : nat) : Prop := forall a u j, ~ gives h a u e j.

(** [e] is to take over the elements of [t]: the copy [a] of [u] gives it these, and no copy around
    that one gives it any *)
Definition heir (h : heap) (a u e t : nat) : Prop :=
  gives h a u e t /\ forall a' u' j, encloses h a' a -> ~ gives h a' u' e j.

(** [e] does take them over; if both have no elements of their own, only if no copy around the copied
    section [u] gives [t] any *)
Definition takes (h : heap) (e t : nat) : Prop :=
  exists a u, heir h a u e t /\
    (own_elements h e <> [] \/ own_elements h t <> [] \/ forall a' u' j, encloses h a' u -> ~ gives h a' u' t j).

(** the elements of [e]: its own, then those of the section it takes over that it does not define *)
Inductive merged_list (h : heap) : nat -> list nat -> Prop :=
| ml_own e : on_its_own h e -> merged_list h e (own_elements h e)
| ml_over e t l l' : takes h e t -> merged_list h t l -> without h (own_elements h e) l l' ->
    merged_list h e (own_elements h e ++ l').
