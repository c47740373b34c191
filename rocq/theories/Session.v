(** Session: the sequences of API calls a program can make on a parsed document.

    A call is made on an object of the class that has the method; objects of one document never
    meet objects of another one, so a session is about one document.  Calls on missing elements
    change nothing and are not listed.  The loaders are arbitrary functions. *)
From Verif Require Import Base Types Messages Reporter Errors Context Elements.

Inductive call : Type :=
| Query (what : option kind) (o : nat) (key : option text) (required : option bool)
| ListElements (o : nat) (key : option text)
| ListOf (k : kind) (o : nat) (key : option text)
| Yield (k : kind) (e : nat)
| QueryEntry (o : nat) (key : option text) (required : option bool)
| ListEntries (o : nat) (key : option text)
| ListItems (o : nat)
| Values (A : Type) (o : nat) (ld : loader A) (required : bool)
| Value (A : Type) (o : nat) (ld : loader A) (required : bool)
| Comment (A : Type) (o : nat) (ld : loader A) (required : bool)
| Key (A : Type) (o : nat) (ld : loader A)
| StringKey (o : nat)
| Raw (o : nat)
| AssertAllTouched (o : nat) (m : message) (only skip : option (list text))
| AssertEntriesTouched (o : nat) (m : message) (only skip : option (list text))
| Touch (o : nat)
| RequireElements (o : nat) (required : bool)
| RequireEntries (o : nat) (required : bool)
| Parent (o : nat)
| Print (o : nat).

(** the classes that have the method *)
Definition callable (c : call) (cl : class) : Prop :=
  match c with
  | Query _ _ _ _ | ListElements _ _ | ListOf _ _ _ | AssertAllTouched _ _ _ _ | RequireElements _ _ => cl = CSection
  | Yield _ _ => cl = CSectionElement \/ cl = CElement
  | QueryEntry _ _ _ | ListEntries _ _ | AssertEntriesTouched _ _ _ _ | RequireEntries _ _ => cl = CFieldset
  | ListItems _ | Values _ _ _ _ => cl = CList
  | Value _ _ _ _ => cl = CField \/ cl = CEntry \/ cl = CItem
  | _ => True
  end.
Definition subject (c : call) : nat :=
  match c with
  | Query _ o _ _ | ListElements o _ | ListOf _ o _ | Yield _ o | QueryEntry o _ _ | ListEntries o _ | ListItems o
  | Values _ o _ _ | Value _ o _ _ | Comment _ o _ _ | Key _ o _ | StringKey o | Raw o | AssertAllTouched o _ _ _
  | AssertEntriesTouched o _ _ _ | Touch o | RequireElements o _ | RequireEntries o _ | Parent o | Print o => o
  end.

(** section_element.py:98-116, section.py:428-432, fieldset.py:123-127, list.py:67-71, element_base.py:81-82 *)
Definition touch (o : nat) : sM unit :=
  let! x := the_obj o in
  match o_class x with
  | CSection => touch_section o
  | CSectionElement | CElement => let! f := ofuel in touch_element f o
  | CFieldset => touch_group fieldset_children o
  | CList => touch_group list_children o
  | _ => touch_obj o
  end.

(** a call without its result *)
Definition run_call (c : call) : sM unit :=
  match c with
  | Query w o k q => let! _ := query w o k q in ret tt
  | ListElements o k => let! _ := section_elements o k in ret tt
  | ListOf kd o k => let! _ := plural kd o k in ret tt
  | Yield kd e => let! _ := to_kind kd e in ret tt
  | QueryEntry o k q => let! _ := entry_query o k q in ret tt
  | ListEntries o k => let! _ := fieldset_entries o k in ret tt
  | ListItems o => let! _ := list_items o in ret tt
  | Values _ o ld q => let! _ := list_values o ld q in ret tt
  | Value _ o ld q => let! _ := value_of o ld q in ret tt
  | Comment _ o ld q => let! _ := comment_of o ld q in ret tt
  | Key _ o ld => let! _ := key_with o ld in ret tt
  | StringKey o => let! _ := string_key o in ret tt
  | Raw o => let! _ := raw_of o in ret tt
  | AssertAllTouched o m only skip => assert_all_touched o m only skip
  | AssertEntriesTouched o m only skip => fieldset_assert_all_touched o m only skip
  | Touch o => touch o
  | RequireElements o b => all_elements_required o b
  | RequireEntries o b => all_entries_required o b
  | Parent o => let! _ := parent_of o in ret tt
  | Print o => let! _ := print_of o in ret tt
  end.

(** Raised exceptions are caught by the program, which then goes on. *)
Inductive goes_on : st -> st -> Prop :=
| go_nil s : goes_on s s
| go_call s c s' : subject c < length (s_objs s) -> callable c (o_class (oget s (subject c))) ->
    goes_on (fst (run_call c s)) s' -> goes_on s s'.

Definition start_obj (cl : class) (i : nat) : obj := MkObj cl i None false false None [] None None None None None None.

(** sessions begin with [parse] (a document) or [lookup] (an [Element]) *)
Inductive begins (c : ctx) : st -> Prop :=
| be_parse : begins c (MkSt c [start_obj CSection 0])
| be_lookup i : i < length (c_heap c) -> begins c (MkSt c [start_obj CElement i]).

(** [s] is a state some program can bring about after the text was parsed into [c] *)
Definition reach (c : ctx) (s : st) : Prop := exists s0, begins c s0 /\ goes_on s0 s.
