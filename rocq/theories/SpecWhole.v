(** SpecWhole: values, items of lists and entries of fieldsets in terms of what they copy (SPEC for
    C22-C24).  Mentions only what the document says. *)
From Verif Require Import Base Types SpecTree SpecResolve SpecRead.

(** the items of what [e] copies, then its own *)
Inductive whole_items (h : heap) : nat -> list nat -> Prop :=
| wi_own e : n_template (hget h e) = None -> whole_items h e (own_items h e)
| wi_copy e t l : template_is false h e t -> whole_items h t l -> whole_items h e (l ++ own_items h e).

(** the entries of what [e] copies that it does not define, then its own *)
Inductive whole_entries (h : heap) : nat -> list nat -> Prop :=
| we_own e : n_template (hget h e) = None -> whole_entries h e (own_entries h e)
| we_copy e t l l' : template_is false h e t -> whole_entries h t l -> without h (own_entries h e) l l' ->
    whole_entries h e (l' ++ own_entries h e).

(** the value of what [e] copies, otherwise its own *)
Inductive whole_value (inp : text) (h : heap) : nat -> option text -> Prop :=
| wv_own e v : n_template (hget h e) = None -> plain_value inp (hget h e) v -> whole_value inp h e v
| wv_copy e t v : template_is false h e t -> whole_value inp h t v -> whole_value inp h e v.
