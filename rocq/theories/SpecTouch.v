(** SpecTouch: what counts as looked at (SPEC for C32, C33).  Mentions only data: the document and the
    objects that were handed out so far. *)
From Verif Require Import Base Types Messages Elements Session SpecTree SpecRead SpecApi.

Definition touched (s : st) (y : nat) : Prop := o_touched (oget s y) = true.
(** the element object [e] was read as a [k], which gave the object [y] *)
Definition read_as (s : st) (e : nat) (k : kind) (y : nat) : Prop := yield_slot k (oget s e) = Some y.
(** what the document has below instruction [e] if it is read as a [k] *)
Definition listed (h : heap) (k : kind) (e : nat) (L : list nat) : Prop :=
  match k with KSection => element_list h e L | KFieldset => entry_list h e L | KList => item_list h e L | _ => L = [] end.
(** the objects below [y] are [l]: they were handed out, or there are none *)
Definition opened_to (h : heap) (s : st) (k : kind) (y : nat) (l : list nat) : Prop :=
  o_children (oget s y) = Some l \/ o_children (oget s y) = None /\ l = [] /\ listed h k (o_instr (oget s y)) [].

(** an element object was looked at, with everything below it *)
Inductive seen (h : heap) (s : st) : nat -> Prop :=
| se_value e k y : k = KEmpty \/ k = KField -> read_as s e k y -> touched s y -> seen h s e
| se_members e k y l : k = KFieldset \/ k = KList -> read_as s e k y -> touched s y -> opened_to h s k y l ->
    (forall z, In z l -> touched s z) -> seen h s e
| se_section e y l : read_as s e KSection y -> touched s y -> opened_to h s KSection y l ->
    (forall z, In z l -> seen h s z) -> seen h s e.

(** something in or below an element object was not looked at: instruction [i] *)
Inductive unseen (h : heap) (s : st) : nat -> nat -> Prop :=
| un_unread e : (forall k y, ~ read_as s e k y) -> unseen h s e (o_instr (oget s e))
| un_unused e k y : read_as s e k y -> ~ touched s y -> unseen h s e (o_instr (oget s y))
| un_member e k y l z : k = KFieldset \/ k = KList -> read_as s e k y -> touched s y -> o_children (oget s y) = Some l ->
    In z l -> ~ touched s z -> unseen h s e (o_instr (oget s z))
| un_below e y l z i : read_as s e KSection y -> touched s y -> o_children (oget s y) = Some l ->
    In z l -> unseen h s z i -> unseen h s e i
| un_unopened e k y L i : read_as s e k y -> touched s y -> o_children (oget s y) = None ->
    listed h k (o_instr (oget s y)) L -> In i L -> unseen h s e i.

(** keys that the caller does not want to know about: those in [skip], or not in [only]; an empty
    [only] counts as none *)
Definition left_out (only skip : option (list text)) (k : option text) : Prop :=
  exists x, k = Some x /\ ((exists l, skip = Some l /\ In x l) \/ (exists y l, only = Some (y :: l) /\ ~ In x (y :: l))).

(** all elements of section object [o] were looked at *)
Definition all_seen (h : heap) (s : st) (o : nat) (only skip : option (list text)) : Prop :=
  (exists l, o_children (oget s o) = Some l /\
     forall e, In e l -> left_out only skip (n_key (hget h (o_instr (oget s e)))) \/ seen h s e) \/
  (o_children (oget s o) = None /\ exists L, element_list h (o_instr (oget s o)) L /\
     forall i, In i L -> left_out only skip (n_key (hget h i))).
(** instruction [i] in or below an element of section object [o] was not looked at *)
Definition overlooked (h : heap) (s : st) (o : nat) (only skip : option (list text)) (i : nat) : Prop :=
  (exists l e, o_children (oget s o) = Some l /\ In e l /\
     ~ left_out only skip (n_key (hget h (o_instr (oget s e)))) /\ unseen h s e i) \/
  (o_children (oget s o) = None /\ exists L, element_list h (o_instr (oget s o)) L /\ In i L /\
     ~ left_out only skip (n_key (hget h i))).

(** all entries of fieldset object [o] were used *)
Definition entries_seen (h : heap) (s : st) (o : nat) (only skip : option (list text)) : Prop :=
  (exists l, o_children (oget s o) = Some l /\
     forall e, In e l -> left_out only skip (n_key (hget h (o_instr (oget s e)))) \/ touched s e) \/
  (o_children (oget s o) = None /\ exists L, entry_list h (o_instr (oget s o)) L /\
     forall i, In i L -> left_out only skip (n_key (hget h i))).

(** an element object and all below it was read as something *)
Inductive opened (h : heap) (s : st) : nat -> Prop :=
| op_value e k y : k <> KSection -> read_as s e k y -> opened h s e
| op_section e y l : read_as s e KSection y -> opened_to h s KSection y l -> (forall z, In z l -> opened h s z) -> opened h s e.
Definition all_opened (h : heap) (s : st) (o : nat) (only skip : option (list text)) : Prop :=
  (exists l, o_children (oget s o) = Some l /\
     forall e, In e l -> left_out only skip (n_key (hget h (o_instr (oget s e)))) \/ opened h s e) \/
  (o_children (oget s o) = None /\ exists L, element_list h (o_instr (oget s o)) L /\
     forall i, In i L -> left_out only skip (n_key (hget h i))).

(** [y] is [o], or was handed out below it *)
Inductive below (s : st) (o : nat) : nat -> Prop :=
| bl_self : below s o o
| bl_child x l y : below s o x -> o_children (oget s x) = Some l -> In y l -> below s o y
| bl_read x k y : below s o x -> read_as s x k y -> below s o y.

(** the calls that count as a use of their object.  A section element is not touched itself, only
    what it was read as. *)
Definition uses (c : call) (cl : class) : Prop :=
  match c with
  | Yield _ _ | Raw _ | AssertAllTouched _ _ _ _ | AssertEntriesTouched _ _ _ _ | RequireElements _ _ | RequireEntries _ _ | Parent _ | Print _ => False
  | Touch _ => cl <> CSectionElement /\ cl <> CElement
  | _ => True
  end.
(** the objects a call uses besides its own *)
Definition also_uses (c : call) (s : st) (y : nat) : Prop :=
  match c with
  | Values _ o _ _ => exists l, o_children (oget s o) = Some l /\ In y l
  | Touch o => below s o y
  | _ => False
  end.
