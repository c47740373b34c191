(** SpecApi: what the accessors of section, fieldset and list objects list (SPEC for C25-C34).
    Mentions only the data of the parsed document. *)
From Verif Require Import Base Types SpecTree SpecResolve SpecRead.

Definition own_elements (h : heap) (e : nat) : list nat := n_elements (hget h e).

(** * Along the links of a resolved document *)

(** 'mirror': read [m] instead; 'extend': read own members and [t] *)
Definition mirrors (h : heap) (e m : nat) : Prop := n_mirror (hget h e) = Some m.
Definition extends (h : heap) (e t : nat) : Prop := n_mirror (hget h e) = None /\ n_extend (hget h e) = Some t.
Definition plain (h : heap) (e : nat) : Prop := n_mirror (hget h e) = None /\ n_extend (hget h e) = None.

(** every chain of links from [e] ends *)
Inductive ends (h : heap) : nat -> Prop :=
| en_plain e : plain h e -> ends h e
| en_mirror e m : mirrors h e m -> ends h m -> ends h e
| en_extend e t : extends h e t -> ends h t -> ends h e.

(** the elements of a section: its own, then those of the section it extends that it does not define *)
Inductive element_list (h : heap) : nat -> list nat -> Prop :=
| li_own e : plain h e -> element_list h e (own_elements h e)
| li_mirror e m l : mirrors h e m -> element_list h m l -> element_list h e l
| li_extend e t l l' : extends h e t -> element_list h t l -> without h (own_elements h e) l l' ->
    element_list h e (own_elements h e ++ l').
(** the entries of a fieldset: those of the fieldset it extends that it does not define, then its own *)
Inductive entry_list (h : heap) : nat -> list nat -> Prop :=
| le_own e : plain h e -> entry_list h e (own_entries h e)
| le_mirror e m l : mirrors h e m -> entry_list h m l -> entry_list h e l
| le_extend e t l l' : extends h e t -> entry_list h t l -> without h (own_entries h e) l l' ->
    entry_list h e (l' ++ own_entries h e).
(** the items of a list: those of the list it extends, then its own *)
Inductive item_list (h : heap) : nat -> list nat -> Prop :=
| lt_own e : plain h e -> item_list h e (own_items h e)
| lt_mirror e m l : mirrors h e m -> item_list h m l -> item_list h e l
| lt_extend e t l : extends h e t -> item_list h t l -> item_list h e (l ++ own_items h e).

(** * In terms of what the document says *)

(** the elements of section [e] by the sections it copies *)
Inductive section_list (h : heap) : nat -> list nat -> Prop :=
| sl_own e : n_template (hget h e) = None -> section_list h e (own_elements h e)
| sl_copy e t l l' : template_is true h e t -> section_list h t l -> without h (own_elements h e) l l' ->
    section_list h e (own_elements h e ++ l').

(** no section around [e], or around a section that [e] copies directly or indirectly, is a deep
    copy ('<<') *)
Inductive copied_plainly (h : heap) : nat -> Prop :=
| cp e : (forall a, encloses h a e -> n_deep_copy (hget h a) = false) ->
    (forall t, template_is true h e t -> copied_plainly h t) -> copied_plainly h e.

(** the ones with key [k]; no key or an empty key selects all *)
Definition keyed (h : heap) (k : option text) (x : nat) : bool :=
  match k with Some (c :: k') => match n_key (hget h x) with Some y => text_eqb (c :: k') y | None => false end | _ => true end.
