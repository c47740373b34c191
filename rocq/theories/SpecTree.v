(** SpecTree: structure of a document (SPEC for C09-C13).  Mentions only data and the line
    grammar [Scan]. *)
From Verif Require Import Base Types Scan SpecText.

Definition is_section (n : node) : Prop := n_type n = SECTION.
Definition is_element (n : node) : Prop :=
  match n_type n with EMPTY_ELEMENT | FIELD | FIELDSET | LIST | MULTILINE_FIELD_BEGIN => True | _ => False end.
Definition is_container (n : node) : Prop := n_type n = DOCUMENT \/ n_type n = SECTION.

(** number of section operators; 0 for the document *)
Definition depth (n : node) : nat :=
  match n_type n with
  | SECTION => match rget (n_ranges n) R_section_operator with Some s => snd s - fst s | None => 0 end
  | _ => 0
  end.

(** [j] is the latest instruction satisfying [P] *)
Definition latest (P : node -> Prop) (h : heap) (j : nat) : Prop :=
  j < length h /\ P (hget h j) /\ forall k, j < k < length h -> ~ P (hget h k).

(** the parent [p] of instruction [i] is the right one *)
Definition well_placed (h : heap) (p i : nat) : Prop :=
  match n_type (hget h i) with
  | SECTION =>
      is_container (hget h p) /\ depth (hget h i) = S (depth (hget h p)) /\
      forall j, p < j < i -> is_section (hget h j) -> depth (hget h i) <= depth (hget h j)
  | EMPTY_ELEMENT | FIELD | FIELDSET | LIST | MULTILINE_FIELD_BEGIN =>
      is_container (hget h p) /\ forall j, p < j < i -> ~ is_section (hget h j)
  | LIST_ITEM =>
      n_type (hget h p) = LIST /\
      forall j, p < j < i -> n_type (hget h j) = LIST_ITEM /\ n_parent (hget h j) = Some p
  | FIELDSET_ENTRY =>
      n_type (hget h p) = FIELDSET /\
      forall j, p < j < i -> n_type (hget h j) = FIELDSET_ENTRY /\ n_parent (hget h j) = Some p
  | _ => False
  end.

(** the numbers of the children of [p] whose type satisfies [f], in document order *)
Definition children (f : itype -> bool) (h : heap) (p : nat) : list nat :=
  filter (fun j => match n_parent (hget h j) with Some q => Nat.eqb q p | None => false end
                   && f (n_type (hget h j)))
         (seq 0 (length h)).
Definition t_elem (t : itype) : bool :=
  match t with SECTION | EMPTY_ELEMENT | FIELD | FIELDSET | LIST | MULTILINE_FIELD_BEGIN => true | _ => false end.
Definition t_item (t : itype) : bool := match t with LIST_ITEM => true | _ => false end.
Definition t_entry (t : itype) : bool := match t with FIELDSET_ENTRY => true | _ => false end.
Definition opt_list (o : option (list nat)) : list nat := match o with Some l => l | None => [] end.

(** the document is a tree: instruction 0 is the root, every other instruction has an earlier
    parent that fits, and child lists hold exactly the children in document order *)
Definition tree (h : heap) : Prop :=
  0 < length h /\ n_type (hget h 0) = DOCUMENT /\ n_parent (hget h 0) = None /\
  (forall i, 0 < i < length h -> exists p, n_parent (hget h i) = Some p /\ p < i /\ well_placed h p i) /\
  (forall p, p < length h ->
     n_elements (hget h p) = children t_elem h p /\
     opt_list (n_items (hget h p)) = children t_item h p /\
     opt_list (n_entries (hget h p)) = children t_entry h p).

(** what a list item / fieldset entry / continuation may be attached to *)
Definition accepts_items (n : node) : bool :=
  match n_type n with LIST | EMPTY_ELEMENT => true | _ => false end.
Definition accepts_entries (n : node) : bool :=
  match n_type n with FIELDSET | EMPTY_ELEMENT => true | _ => false end.
Definition accepts_continuation (n : node) : bool :=
  match n_type n with
  | EMPTY_ELEMENT | FIELD => match n_template n with None => true | Some _ => false end
  | LIST_ITEM | FIELDSET_ENTRY => true
  | _ => false
  end.

(** * Multiline fields *)

(** the line behind the line feed at [s] repeats operator and key *)
Definition closes (inp op key : text) (s : nat) : Prop :=
  nth_error inp s = Some nl /\ closing_line op key (S s) (skipn (S s) inp) <> None.
(** the first such place from [e] on *)
Definition first_closing (inp op key : text) (e s : nat) : Prop :=
  e <= s /\ closes inp op key s /\ forall s', e <= s' < s -> ~ closes inp op key s'.
(** the content between a line ending at [e] and the closing line behind [s] *)
Definition between (inp : text) (e s : nat) : option text :=
  if Nat.eqb s e then None else Some (slice inp (S e) s).

(** * Comments *)

(** where the comment block above an instruction (or the instruction) starts *)
Definition block_start (n : node) : nat := fst (hd (line_range (n_ranges n)) (node_lines n)).
(** the comments of an instruction stand directly above it, in order, and nothing in [meta]
    (detached comments) ends directly above them *)
Definition own_comments (inp : text) (meta : list leaf) (n : node) : Prop :=
  n_comments n <> Some [] /\
  Forall (fun c => l_type c = Some COMMENT) (match n_comments n with Some l => l | None => [] end) /\
  tiles inp (block_start n) (map leaf_line (match n_comments n with Some l => l | None => [] end))
        (fst (line_range (n_ranges n))) /\
  forall m, In m meta -> S (snd (leaf_line m)) <> block_start n.
