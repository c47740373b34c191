(** SpecText: what it means for recorded ranges and texts to describe the input (SPEC for
    C04-C08).  Mentions only data. *)
From Coq Require Import Permutation.
From Verif Require Import Base Types.

(** the characters of the input in a range *)
Definition at_range (inp : text) (s : nat * nat) : text := slice inp (fst s) (snd s).

(** Trimmed, non-empty, on one line. *)
Definition trimmed (t : text) : Prop :=
  t <> [] /\ is_space (hd nl t) = false /\ is_space (last t nl) = false /\ ~ In nl t.

(** positions at which a line begins / ends *)
Definition begins_line (inp : text) (b : nat) : Prop := b = 0 \/ nth_error inp (b - 1) = Some nl.
Definition ends_line (inp : text) (e : nat) : Prop := e = length inp \/ nth_error inp e = Some nl.

(** no range is recorded twice, and none but the line range overlaps another one *)
Definition before (s s' : nat * nat) : Prop := fst s < fst s' /\ snd s <= fst s'.
Definition apart (rs : ranges) : Prop :=
  NoDup (map fst rs) /\
  forall nm s nm' s', In (nm, s) rs -> In (nm', s') rs -> nm <> R_line -> nm' <> R_line -> nm <> nm' ->
    before s s' \/ before s' s.

(** every recorded range lies inside the line range, which lies inside the input *)
Definition nested (inp : text) (rs : ranges) : Prop :=
  exists b e, rget rs R_line = Some (b, e) /\ b <= e /\ e <= length inp /\
    begins_line inp b /\ ends_line inp e /\
    (forall nm s, In (nm, s) rs -> b <= fst s /\ fst s <= snd s /\ snd s <= e) /\ apart rs.

Definition textual (nm : rname) : bool :=
  match nm with R_key | R_value | R_template | R_comment => true | _ => false end.
(** keys, values, templates and comments are trimmed *)
Definition all_trimmed (inp : text) (rs : ranges) : Prop :=
  forall nm s, In (nm, s) rs -> textual nm = true -> trimmed (at_range inp s).

(** the lines hanging on an instruction: comments, continuations, multiline value lines, end *)
Definition hanging (n : node) : list leaf :=
  match n_comments n with Some l => l | None => [] end ++
  match n_conts n with Some l => l | None => [] end ++
  match n_lines n with Some l => l | None => [] end ++
  match n_end n with Some l => [l] | None => [] end.

(** a comment, continuation, multiline value or multiline end describes the input *)
Definition leaf_faithful (inp : text) (l : leaf) : Prop :=
  nested inp (l_ranges l) /\
  match l_type l with
  | Some COMMENT => l_text l = option_map (at_range inp) (rget (l_ranges l) R_comment) /\ all_trimmed inp (l_ranges l)
  | Some CONTINUATION => l_text l = option_map (at_range inp) (rget (l_ranges l) R_value) /\ all_trimmed inp (l_ranges l)
  | Some MULTILINE_FIELD_VALUE =>
      rget (l_ranges l) R_value = rget (l_ranges l) R_line /\ ~ In nl (at_range inp (line_range (l_ranges l)))
  | Some MULTILINE_FIELD_END => all_trimmed inp (l_ranges l)
  | _ => False
  end.

(** an element, section, item or entry describes the input *)
Definition node_faithful (inp : text) (n : node) : Prop :=
  nested inp (n_ranges n) /\ all_trimmed inp (n_ranges n) /\
  n_key n = option_map (at_range inp) (rget (n_ranges n) R_key) /\
  n_value n = option_map (at_range inp) (rget (n_ranges n) R_value) /\
  n_template n = option_map (at_range inp) (rget (n_ranges n) R_template) /\
  Forall (leaf_faithful inp) (hanging n).

(** * Tiling *)

(** [l] is a gapless sequence of line ranges from [i] to [j], separated by single line feeds *)
Inductive tiles (inp : text) : nat -> list (nat * nat) -> nat -> Prop :=
| tiles_nil i : tiles inp i [] i
| tiles_cons i e l j : i <= e -> e <= length inp -> ends_line inp e -> tiles inp (S e) l j ->
    tiles inp i ((i, e) :: l) j.

Definition blank (inp : text) (s : nat * nat) : Prop := forallb is_space (at_range inp s) = true.

(** the line ranges of an instruction and what hangs on it, in document order *)
Definition leaf_line (l : leaf) : nat * nat := line_range (l_ranges l).
Definition node_lines (n : node) : list (nat * nat) :=
  map leaf_line (match n_comments n with Some l => l | None => [] end) ++
  line_range (n_ranges n) ::
  map leaf_line (match n_conts n with Some l => l | None => [] end ++
                 match n_lines n with Some l => l | None => [] end ++
                 match n_end n with Some l => [l] | None => [] end).
(** all instructions but the document (number 0), in creation order *)
Definition heap_lines (h : heap) : list (nat * nat) := flat_map node_lines (tl h).

(** line ranges in strictly ascending order between [lo] and [hi] *)
Fixpoint ascending (lo : nat) (l : list (nat * nat)) (hi : nat) : Prop :=
  match l with
  | [] => lo <= hi
  | (b, e) :: l' => lo <= b /\ b <= e /\ ascending (S e) l' hi
  end.

(** number of line feeds before a position *)
Definition line_feeds_before (inp : text) (i : nat) : nat :=
  length (filter (fun c => N.eqb c nl) (firstn i inp)).

(** line numbers paired with line ranges, in the same order as [node_lines] *)
Definition leaf_num (l : leaf) : nat * (nat * nat) := (l_line l, leaf_line l).
Definition node_nums (n : node) : list (nat * (nat * nat)) :=
  map leaf_num (match n_comments n with Some l => l | None => [] end) ++
  (n_line n, line_range (n_ranges n)) ::
  map leaf_num (match n_conts n with Some l => l | None => [] end ++
                match n_lines n with Some l => l | None => [] end ++
                match n_end n with Some l => [l] | None => [] end).
Definition heap_nums (h : heap) : list (nat * (nat * nat)) := flat_map node_nums (tl h).
(** the instruction occupies a single line of the input *)
Definition single_line (inp : text) (s : nat * nat) : Prop := ~ In nl (at_range inp s).
