(** SpecRead: what reading an instruction of a parsed document yields (SPEC for C15-C18, C22-C27).
    Mentions only data. *)
From Verif Require Import Base Types SpecText SpecTree SpecResolve.

(** * Joining continuations (C15) *)

(** The parts of a value: the value on the line itself and the continuations, each with its text
    (if any) and whether it asks for a space. *)
Definition parts (n : node) : list (option text * bool) :=
  (n_value n, false) :: map (fun l => (l_text l, l_spaced l)) (match n_conts n with Some l => l | None => [] end).

Definition absent (p : option text * bool) : Prop := fst p = None.
Definition asks (p : option text * bool) : Prop := snd p = true.

(** what follows the first part *)
Inductive joined_rest : list (option text * bool) -> text -> Prop :=
| jr_end gap : Forall absent gap -> joined_rest gap []
| jr_space gap t sp rest r : Forall absent gap -> (sp = true \/ Exists asks gap) -> joined_rest rest r ->
    joined_rest (gap ++ (Some t, sp) :: rest) (32%N :: t ++ r)
| jr_direct gap t rest r : Forall absent gap -> ~ Exists asks gap -> joined_rest rest r ->
    joined_rest (gap ++ (Some t, false) :: rest) (t ++ r).
Inductive joined : list (option text * bool) -> option text -> Prop :=
| jo_none ps : Forall absent ps -> joined ps None
| jo_some gap t sp rest r : Forall absent gap -> joined_rest rest r ->
    joined (gap ++ (Some t, sp) :: rest) (Some (t ++ r)).

(** The value of an instruction by itself: the lines between the markers of a multiline field,
    the joined parts otherwise. *)
Definition plain_value (inp : text) (n : node) (v : option text) : Prop :=
  match n_type n with
  | MULTILINE_FIELD_BEGIN =>
      match n_lines n with
      | Some (l :: ls) => v = Some (at_range inp (fst (leaf_line l), snd (leaf_line (last ls l))))
      | _ => v = None
      end
  | _ => joined (parts n) v
  end.

(** * Comments (C18) *)

(** number of columns before the text of a comment, counted after the line's beginning *)
Definition column_of (l : leaf) : nat :=
  match rget (l_ranges l) R_comment with Some s => fst s - fst (leaf_line l) | None => 0 end.

(** [l] without its leading and trailing members that fail [P] *)
Definition core_of {A} (P : A -> Prop) (l c : list A) : Prop :=
  exists a b, l = a ++ c ++ b /\ Forall (fun x => ~ P x) a /\ Forall (fun x => ~ P x) b /\
    c <> [] /\ (forall x, hd_error c = Some x -> P x) /\ (forall x, hd_error (rev c) = Some x -> P x).
Definition has_text (l : leaf) : Prop := l_text l <> None.

(** the indentation shared by the lines with text *)
Definition shared_indent (ls : list leaf) (k : nat) : Prop :=
  (forall l, In l ls -> has_text l -> k <= column_of l) /\ exists l, In l ls /\ has_text l /\ column_of l = k.

(** one line of the comment text *)
Definition dedented (k : nat) (l : leaf) : text :=
  match l_text l with None => [] | Some t => repeat 32%N (column_of l - k) ++ t end.
Fixpoint lines_joined (ls : list text) : text :=
  match ls with [] => [] | [x] => x | x :: rest => x ++ nl :: lines_joined rest end.

(** the text of a comment block *)
Inductive block_text : list leaf -> option text -> Prop :=
| bt_empty ls : Forall (fun l => ~ has_text l) ls -> block_text ls None
| bt_text ls c k : core_of has_text ls c -> shared_indent ls k ->
    block_text ls (Some (lines_joined (map (dedented k) c))).

(** * Copies (C22-C24) *)

Definition own_items (h : heap) (e : nat) : list nat := match n_items (hget h e) with Some l => l | None => [] end.
Definition own_entries (h : heap) (e : nat) : list nat := match n_entries (hget h e) with Some l => l | None => [] end.

(** [e] is a copy of [t] that adds nothing *)
Definition bare_copy (h : heap) (e t : nat) : Prop :=
  template_is false h e t /\ own_items h e = [] /\ own_entries h e = [].

(** one of [own] has the key of [x] *)
Definition redefined (h : heap) (own : list nat) (x : nat) : Prop :=
  exists y, In y own /\ n_key (hget h y) = n_key (hget h x).
(** [l'] is [l] without what [own] redefines *)
Inductive without (h : heap) (own : list nat) : list nat -> list nat -> Prop :=
| wo_nil : without h own [] []
| wo_keep x l l' : ~ redefined h own x -> without h own l l' -> without h own (x :: l) (x :: l')
| wo_drop x l l' : redefined h own x -> without h own l l' -> without h own (x :: l) l'.
