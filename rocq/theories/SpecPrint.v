(** SpecPrint: when an error about a parsed document can be reported (SPEC for C41). *)
From Verif Require Import Base Types Reporter Errors Faults.

(** The element ends in a way reports cannot continue from: an empty element, a fieldset without
    entries of its own (a copy), or a section ending with such an element. *)
Inductive bare (h : heap) : nat -> Prop :=
| bare_empty e : n_type (hget h e) = EMPTY_ELEMENT -> bare h e
| bare_fieldset e : n_type (hget h e) = FIELDSET -> n_entries (hget h e) = None -> bare h e
| bare_section e l x : n_type (hget h e) = SECTION -> n_elements (hget h e) = l ++ [x] -> bare h x -> bare h e.

(** A bare element is followed by another one in section [e] or in a section below it. *)
Inductive gap_inside (h : heap) : nat -> Prop :=
| gap_here e l1 x y l2 : n_type (hget h e) = SECTION -> n_elements (hget h e) = l1 ++ x :: y :: l2 -> bare h x -> gap_inside h e
| gap_below e x : n_type (hget h e) = SECTION -> In x (n_elements (hget h e)) -> gap_inside h x -> gap_inside h e.

(** The same before the first subsection of section [e]. *)
Definition gap_at_top (h : heap) (e : nat) : Prop :=
  n_type (hget h e) = SECTION /\ exists l1 x y l2, n_elements (hget h e) = l1 ++ x :: y :: l2 /\
    (forall z, In z (l1 ++ [x]) -> n_type (hget h z) <> SECTION) /\ bare h x.

Definition shows (h : heap) (e : nat) : Prop := e <> 0 /\ ~ gap_inside h e.

Definition reportable (h : heap) (v : complaint) : Prop :=
  match v with
  | BadComment _ e => e <> 0 /\ n_comments (hget h e) <> None
  | BadElement _ e | NotExpected _ e | OtherKind _ e _ => shows h e
  | BadKey _ e => e <> 0 /\ n_type (hget h e) <> LIST_ITEM
  | BadValue _ e => e <> 0 /\ (n_mirror (hget h e) = None -> ~ gap_inside h e)
  | NoComment e => e <> 0
  | NoElement _ p _ => ~ gap_at_top h p
  | NoValue e => match n_type (hget h e) with FIELD | EMPTY_ELEMENT | MULTILINE_FIELD_BEGIN | FIELDSET_ENTRY | LIST_ITEM => True | _ => False end
  | TooMany _ es _ => es <> [] /\ forall e, In e es -> shows h e
  end.

(** no section is a deep copy *)
Definition no_deep_copies (h : heap) : Prop := forall e, rget (n_ranges (hget h e)) R_deep_copy_operator = None.
