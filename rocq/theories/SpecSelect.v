(** SpecSelect: what selections of errors should point at (SPEC for C40). *)
From Verif Require Import Base Types SpecText SpecLookup Reporter.

(** the cursor is a position of the text, its column counted from the beginning of a line *)
Definition inside (inp : text) (cu : cursor_t) : Prop :=
  exists b, begins_line inp b /\ cu_index cu = b + cu_column cu /\ cu_index cu <= length inp.
(** and that line is the one with the number of the cursor *)
Definition exact (inp : text) (cu : cursor_t) : Prop := position inp (cu_line cu) (cu_column cu) (cu_index cu).

Definition selects (P : cursor_t -> Prop) (s : selection_t) : Prop :=
  P (sel_from s) /\ P (sel_to s) /\ cu_index (sel_from s) <= cu_index (sel_to s).

(** no line of an instruction contains a line feed *)
Definition single_lines (inp : text) (h : heap) : Prop :=
  forall x, 0 < x < length h -> single_line inp (line_range (n_ranges (hget h x))).
