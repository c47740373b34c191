(** SpecErrors: positions and selections (SPEC for C19-C21, C40). *)
From Verif Require Import Base Types SpecText Reporter.

(** the cursor at position [p] of an instruction: column counted from the start of its line *)
Definition node_cursor (n : node) (p : nat) : cursor_t := MkCursor (p - fst (line_range (n_ranges n))) p (n_line n).
Definition leaf_cursor_at (l : leaf) (p : nat) : cursor_t := MkCursor (p - fst (leaf_line l)) p (l_line l).
Definition line_of_node (n : node) : selection_t :=
  MkSel (node_cursor n (fst (line_range (n_ranges n)))) (node_cursor n (snd (line_range (n_ranges n)))).
Definition line_of_leaf (l : leaf) : selection_t :=
  MkSel (leaf_cursor_at l (fst (leaf_line l))) (leaf_cursor_at l (snd (leaf_line l))).

