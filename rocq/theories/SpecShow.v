(** SpecShow: what the objects of the API look like when printed, and what they lie below
    (SPEC for C51 and C52). *)
From Verif Require Import Base Types Messages Reporter Errors Elements SpecTree SpecRead SpecApi SpecQuery SpecLoad SpecNumber.

(** * Values *)

(** a value with more than 14 characters is cut off after the eleventh *)
Inductive value_shown : option text -> text -> Prop :=
| vs_none : value_shown None (U "None")
| vs_empty : value_shown (Some []) (U "None")
| vs_short t : t <> [] -> length t <= 14 -> value_shown (Some t) t
| vs_long start rest : length start = 11 -> 3 < length rest -> value_shown (Some (start ++ rest)) (start ++ U "...").

(** * Objects *)

(** the name, the key and how many members there are, or the value *)
Inductive shows (inp : text) (h : heap) (e : nat) : class -> text -> Prop :=
| sh_document l d : n_type (hget h e) = DOCUMENT -> element_list h e l -> decimal (length l) d ->
    shows inp h e CSection (U "<class Section document elements=" ++ d ++ U ">")
| sh_section k l d : n_type (hget h e) <> DOCUMENT -> n_key (hget h e) = Some k -> element_list h e l -> decimal (length l) d ->
    shows inp h e CSection (U "<class Section key=""" ++ k ++ U """ elements=" ++ d ++ U ">")
| sh_fieldset k l d : n_key (hget h e) = Some k -> entry_list h e l -> decimal (length l) d ->
    shows inp h e CFieldset (U "<class Fieldset key=" ++ k ++ U " entries=" ++ d ++ U ">")
| sh_list k l d : n_key (hget h e) = Some k -> item_list h e l -> decimal (length l) d ->
    shows inp h e CList (U "<class List key=" ++ k ++ U " items=" ++ d ++ U ">")
| sh_field k v t : n_key (hget h e) = Some k -> value_text inp h e v -> value_shown v t ->
    shows inp h e CField (U "<class Field key=" ++ k ++ U " value=" ++ t ++ U ">")
| sh_entry k v t : n_key (hget h e) = Some k -> value_text inp h e v -> value_shown v t ->
    shows inp h e CEntry (U "<class FieldsetEntry key=" ++ k ++ U " value=" ++ t ++ U ">")
| sh_item v t : value_text inp h e v -> value_shown v t -> shows inp h e CItem (U "<class ListItem value=" ++ t ++ U ">")
| sh_empty k : n_key (hget h e) = Some k -> shows inp h e CEmpty (U "<class Empty key=" ++ k ++ U ">")
| sh_element k : n_key (hget h e) = Some k -> shows inp h e CElement (U "<class Element key=" ++ k ++ U ">")
| sh_below k : n_key (hget h e) = Some k -> shows inp h e CSectionElement (U "<class SectionElement key=" ++ k ++ U ">").

(** * Missing elements *)

(** what was asked for, and its key if there was one *)
Definition asked (what : option kind) : text :=
  match what with
  | None => U "SectionElement"
  | Some KEmpty => U "Empty"
  | Some KField => U "Field"
  | Some KFieldset => U "Fieldset"
  | Some KList => U "List"
  | Some KSection => U "Section"
  end.
Inductive shows_missing (name : text) : option text -> text -> Prop :=
| sm_keyed k : k <> [] -> shows_missing name (Some k) (U "<class Missing" ++ name ++ U " key=" ++ k ++ U ">")
| sm_any : shows_missing name None (U "<class Missing" ++ name ++ U ">")
| sm_empty : shows_missing name (Some []) (U "<class Missing" ++ name ++ U ">").

(** * Parents *)

(** the classes whose objects have a parent() to ask for, besides sections *)
Definition owned (cl : class) : Prop :=
  match cl with CFieldset | CList | CField | CEmpty | CEntry | CItem => True | _ => False end.
(** an entry lies below a fieldset, an item below a list and everything else below a section, and is
    one of its members there (an own one or one of what it copies) *)
Definition owner (cl : class) : class := match cl with CEntry => CFieldset | CItem => CList | _ => CSection end.
Definition member_of (h : heap) (cl : class) (a e : nat) : Prop :=
  match cl with
  | CEntry => exists l, entry_list h a l /\ In e l
  | CItem => exists l, item_list h a l /\ In e l
  | _ => exists l, element_list h a l /\ In e l
  end.
