(** SpecRaw: the structure that raw() describes (SPEC for C17, C27).  Mentions only data. *)
From Verif Require Import Base Types Context SpecTree SpecRead SpecApi SpecQuery SpecLoad.

(** the elements of a section in the order of raw(): those of the section it extends that it does not
    define, then its own *)
Inductive raw_list (h : heap) : nat -> list nat -> Prop :=
| rl_own e : plain h e -> raw_list h e (own_elements h e)
| rl_extend e t l l' : extends h e t -> raw_list h t l -> without h (own_elements h e) l l' ->
    raw_list h e (l' ++ own_elements h e).

(** the comment is there if the element has comments *)
Definition raw_comment (h : heap) (e : nat) (c : option (option text)) : Prop :=
  match n_comments (hget h e) with
  | None => c = None
  | Some ls => hollow_comment h e = false /\ exists v, block_text ls v /\ c = Some v
  end.

Inductive raw_tree (inp : text) (h : heap) : nat -> raw_t -> Prop :=
| rt_empty e c k : n_type (hget h e) = EMPTY_ELEMENT -> raw_comment h e c -> n_key (hget h e) = Some k ->
    raw_tree inp h e (RawEmpty c k)
| rt_field e c k v : n_type (hget h e) = FIELD \/ n_type (hget h e) = MULTILINE_FIELD_BEGIN -> raw_comment h e c -> n_key (hget h e) = Some k ->
    value_text inp h e v -> raw_tree inp h e (RawField c k v)
| rt_item e c v : n_type (hget h e) = LIST_ITEM -> raw_comment h e c -> value_text inp h e v -> raw_tree inp h e (RawItem c v)
| rt_entry e c k v : n_type (hget h e) = FIELDSET_ENTRY -> raw_comment h e c -> n_key (hget h e) = Some k ->
    value_text inp h e v -> raw_tree inp h e (RawEntry c k v)
| rt_list e c k l xs : n_type (hget h e) = LIST -> raw_comment h e c -> n_key (hget h e) = Some k ->
    item_list h e l -> raw_trees inp h l xs -> raw_tree inp h e (RawList c k xs)
| rt_fieldset e c k l xs : n_type (hget h e) = FIELDSET -> raw_comment h e c -> n_key (hget h e) = Some k ->
    entry_list h e l -> raw_trees inp h l xs -> raw_tree inp h e (RawFieldset c k xs)
| rt_section e c k l xs : n_type (hget h e) = SECTION -> raw_comment h e c -> n_key (hget h e) = Some k ->
    raw_list h e l -> raw_trees inp h l xs -> raw_tree inp h e (RawSection c k xs)
| rt_document e c l xs : n_type (hget h e) = DOCUMENT -> raw_comment h e c ->
    raw_list h e l -> raw_trees inp h l xs -> raw_tree inp h e (RawDocument xs)
with raw_trees (inp : text) (h : heap) : list nat -> list raw_t -> Prop :=
| rt_nil : raw_trees inp h [] []
| rt_cons e l x xs : raw_tree inp h e x -> raw_trees inp h l xs -> raw_trees inp h (e :: l) (x :: xs).

(** the members of a description *)
Definition raw_members (x : raw_t) : list raw_t :=
  match x with RawList _ _ l | RawFieldset _ _ l | RawSection _ _ l | RawDocument l => l | _ => [] end.

(** no section copies another one *)
Definition no_section_copies (h : heap) : Prop := forall e, is_section (hget h e) -> n_template (hget h e) = None.
(** no section is nothing but a copy *)
Definition no_mirrored_sections (h : heap) : Prop := forall e m, is_section (hget h e) -> ~ mirrors h e m.
