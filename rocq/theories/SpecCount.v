(** SpecCount: the line feeds that are inside instructions (SPEC for C08).  Mentions only data. *)
From Verif Require Import Base Types SpecText Reporter.

(** line feeds inside a range *)
Definition inner_feeds (inp : text) (s : nat * nat) : nat :=
  length (filter (fun c => N.eqb c nl) (at_range inp s)).

(** the ranges of the instructions: all but the document, without what hangs on them *)
Definition instruction_ranges (h : heap) : list (nat * nat) := map (fun n => line_range (n_ranges n)) (tl h).

(** line feeds inside the ranges that begin before position [i] *)
Fixpoint feeds_inside (inp : text) (l : list (nat * nat)) (i : nat) : nat :=
  match l with
  | [] => 0
  | s :: l' => (if Nat.ltb (fst s) i then inner_feeds inp s else 0) + feeds_inside inp l' i
  end.
Definition swallowed (inp : text) (h : heap) (i : nat) : nat := feeds_inside inp (instruction_ranges h) i.

(** the cursor is a position of the text, its column counted from the beginning of a line, its
    line number short of the line feeds before that line by those inside earlier instructions *)
Definition counted (inp : text) (h : heap) (cu : cursor_t) : Prop :=
  exists b, begins_line inp b /\ cu_index cu = b + cu_column cu /\ cu_index cu <= length inp /\
    cu_line cu + swallowed inp h b = line_feeds_before inp b.
