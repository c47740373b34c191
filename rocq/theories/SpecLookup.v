(** SpecLookup: which instruction a position of the input belongs to (SPEC for C36-C39).
    Mentions only data. *)
From Coq Require Import ZArith.
From Verif Require Import Base Types SpecText SpecTree.

(** a position on a line range; the line feed behind the line belongs to it *)
Definition on (s : nat * nat) (i : nat) : Prop := fst s <= i <= snd s.

(** the further lines of an instruction: continuations, or multiline value lines and end *)
Definition rest (n : node) : list leaf :=
  match n_conts n with Some l => l | None => [] end ++
  match n_lines n with Some l => l | None => [] end ++
  match n_end n with Some l => [l] | None => [] end.
(** where the first line of an instruction begins and the last one ends *)
Definition begins (n : node) : nat := fst (line_range (n_ranges n)).
Definition finish (n : node) : nat := snd (last (map leaf_line (rest n)) (line_range (n_ranges n))).

(** [rs] are the ranges of a line of [n] (its own line or a further one) that contains position [i] *)
Definition line_at (n : node) (i : nat) (rs : ranges) : Prop :=
  (rs = n_ranges n \/ exists l, In l (rest n) /\ rs = l_ranges l) /\
  exists s, rget rs R_line = Some s /\ on s i.

(** [rs] are the ranges of a line of [n] with line number [l] *)
Definition line_numbered (n : node) (l : nat) (rs : ranges) : Prop :=
  rs = n_ranges n /\ n_line n = l \/ exists lf, In lf (rest n) /\ l_line lf = l /\ rs = l_ranges lf.
(** [rs] are the ranges of a comment at the document itself, with line number [l] *)
Definition comment_numbered (meta : list leaf) (l : nat) (rs : ranges) : Prop :=
  exists lf, In lf meta /\ l_line lf = l /\ rs = l_ranges lf.

(** the items of a list, the entries of a fieldset *)
Definition parts (n : node) : list nat := opt_list (n_items n) ++ opt_list (n_entries n).

(** where an element ends for lookup: with the own line of its last item or entry, if it has any *)
Definition stretch (h : heap) (e : nat) : nat :=
  match parts (hget h e) with
  | [] => finish (hget h e)
  | x :: l => snd (line_range (n_ranges (hget h (last l x))))
  end.
(** where an element ends in the text: with the last line of its last item or entry *)
Definition text_stretch (h : heap) (e : nat) : nat :=
  match parts (hget h e) with
  | [] => finish (hget h e)
  | x :: l => finish (hget h (last l x))
  end.

(** position [i] is between the first and the last line of instruction [x]; sections and the
    document have no last line *)
Definition covers_with (ends : heap -> nat -> nat) (h : heap) (i x : nat) : Prop :=
  (x = 0 \/ begins (hget h x) <= i) /\
  match n_type (hget h x) with
  | DOCUMENT | SECTION => True
  | LIST_ITEM | FIELDSET_ENTRY => i <= finish (hget h x) /\ exists p, n_parent (hget h x) = Some p /\ i <= ends h p
  | _ => i <= ends h x
  end.
(** the latest instruction with the position between its lines *)
Definition innermost_with (ends : heap -> nat -> nat) (h : heap) (i x : nat) : Prop :=
  x < length h /\ covers_with ends h i x /\ forall y, x < y < length h -> ~ covers_with ends h i y.

(** what lookup finds *)
Definition covers := covers_with stretch.
Definition innermost := innermost_with stretch.
(** what it should find *)
Definition true_innermost := innermost_with text_stretch.

(** * Ranges *)

Local Open Scope Z_scope.

Definition within (s : nat * nat) (i : Z) : Prop := Z.of_nat (fst s) <= i <= Z.of_nat (snd s).
Definition at_begin (s : nat * nat) (i : Z) : Prop := Z.of_nat (fst s) = i /\ i <= Z.of_nat (snd s).
Definition candidate_range (P : nat * nat -> Z -> Prop) (i : Z) (x : rname * (nat * nat)) : Prop :=
  fst x <> R_line /\ P (snd x) i.

(** the last range that begins at the position, or else the first that contains it *)
Inductive picked (rs : ranges) (i : Z) : option rname -> Prop :=
| picked_none : Forall (fun x => ~ candidate_range within i x) rs -> picked rs i None
| picked_begin l1 x l2 : rs = l1 ++ x :: l2 -> candidate_range at_begin i x ->
    Forall (fun y => ~ candidate_range at_begin i y) l2 -> picked rs i (Some (fst x))
| picked_first l1 x l2 : rs = l1 ++ x :: l2 -> candidate_range within i x ->
    Forall (fun y => ~ candidate_range within i y) l1 ->
    Forall (fun y => ~ candidate_range at_begin i y) rs -> picked rs i (Some (fst x)).

(** [i] is the position of column [col] in line [l] (both counted from 0) *)
Definition position (inp : text) (l col i : nat) : Prop :=
  exists b, begins_line inp b /\ (b + col = i)%nat /\ (i <= length inp)%nat /\
    l = line_feeds_before inp b /\ ~ In nl (slice inp b i).

(** the range lookup by index reports at instruction [x]: one of the line that contains the
    position, none if no line does *)
Definition range_at (h : heap) (i x : nat) (o : option rname) : Prop :=
  (exists rs, line_at (hget h x) i rs /\ picked rs (Z.of_nat i) o) \/ (forall rs, ~ line_at (hget h x) i rs) /\ o = None.
(** the line lookup by line number reports: a line of the instruction, or a comment at the document *)
Definition line_found (h : heap) (meta : list leaf) (l x : nat) (rs : ranges) : Prop :=
  (0 < x)%nat /\ line_numbered (hget h x) l rs \/ comment_numbered meta l rs.
