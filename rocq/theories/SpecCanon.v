(** SpecCanon: the canonical text of a document (SPEC for C14).  The documents are the descriptions that
    raw() gives; the text is written without any copies or continuations, one instruction per line. *)
From Verif Require Import Base Types Context SpecText SpecRead.

(** * Pieces of lines *)

Definition among (l : text) (c : char) : bool := existsb (N.eqb c) l.
Definition occurrences (c : char) (t : text) : nat := length (filter (N.eqb c) t).

(** nothing in the key could be taken for an operator *)
Definition unambiguous (k : text) : bool :=
  match k with
  | c :: r => negb (among (U ">#-`|\:=<") c) && forallb (fun x => negb (among (U ":=<") x)) r
  | [] => false
  end.
(** otherwise the key is put between more backticks than it contains *)
Definition quotes (k : text) : text := repeat 96%N (S (occurrences 96 k)).
Definition written_key (k : text) : text :=
  if unambiguous k then k else quotes k ++ 32%N :: k ++ 32%N :: quotes k.

(** the text fits on a line, behind a space *)
Definition fits (v : text) : bool :=
  match v with c :: _ => negb (is_space c) && negb (is_space (last v nl)) && forallb (fun x => negb (N.eqb x nl)) v | [] => false end.
Definition behind (v : option text) : text := match v with Some v => 32%N :: v | None => [] end.

(** the lines of a text *)
Fixpoint lines_of (t : text) : list text :=
  match t with
  | [] => [[]]
  | c :: t' =>
      if N.eqb c nl then [] :: lines_of t' else
      match lines_of t' with l :: ls => (c :: l) :: ls | [] => [[c]] end
  end.

(** * Lines of instructions *)

Definition comment_lines (c : option (option text)) : list text :=
  match c with
  | None => []
  | Some None => [U ">"; U ">"]
  | Some (Some t) => map (fun l => match l with [] => U ">" | _ => U "> " ++ l end) (lines_of t)
  end.

(** a block between two lines of dashes: more dashes than the value contains *)
Definition dashes (v : text) : text := repeat 45%N (2 + occurrences 45 v).
Definition field_lines (k : text) (v : option text) : list text :=
  match v with
  | Some t =>
      if fits t then [written_key k ++ U ": " ++ t]
      else [dashes t ++ 32%N :: k; t; dashes t ++ 32%N :: k]
  | None => [dashes [] ++ 32%N :: k; dashes [] ++ 32%N :: k]
  end.

(** [d] is the number of sections around *)
Fixpoint canon (d : nat) (x : raw_t) : list text :=
  match x with
  | RawEmpty c k => comment_lines c ++ [written_key k ++ U ":"]
  | RawField c k v => comment_lines c ++ field_lines k v
  | RawItem c v => comment_lines c ++ [U "-" ++ behind v]
  | RawEntry c k v => comment_lines c ++ [written_key k ++ U " =" ++ behind v]
  | RawList c k xs | RawFieldset c k xs => comment_lines c ++ (written_key k ++ U ":") :: flat_map (canon d) xs
  | RawSection c k xs => comment_lines c ++ (repeat 35%N (S d) ++ 32%N :: written_key k) :: flat_map (canon (S d)) xs
  | RawDocument xs => flat_map (canon d) xs
  | RawOther _ => []
  end.
Definition text_of (ls : list text) : text := flat_map (fun l => l ++ [nl]) ls.
Definition canonical (x : raw_t) : text := text_of (canon 0 x).

(** * The documents that can be written *)

(** a line of a comment: nothing, or some text behind spaces *)
Definition comment_line (l : text) : Prop := l = [] \/ exists j u, l = repeat 32%N j ++ u /\ trimmed u.
(** a comment neither begins nor ends with an empty line, and some line is not indented *)
Definition comment_fine (c : option (option text)) : Prop :=
  match c with
  | Some (Some t) =>
      Forall comment_line (lines_of t) /\ hd [] (lines_of t) <> [] /\ last (lines_of t) [] <> [] /\
      Exists trimmed (lines_of t)
  | _ => True
  end.
Definition value_fine (v : option text) : Prop := match v with Some t => trimmed t | None => True end.

Inductive item : raw_t -> Prop :=
| it_item c v : comment_fine c -> value_fine v -> item (RawItem c v).
Inductive entry : raw_t -> Prop :=
| en_entry c k v : comment_fine c -> trimmed k -> value_fine v -> entry (RawEntry c k v).
(** elements that are not sections; the value of a field is arbitrary *)
Inductive element : raw_t -> Prop :=
| el_empty c k : comment_fine c -> trimmed k -> element (RawEmpty c k)
| el_field c k v : comment_fine c -> trimmed k -> element (RawField c k v)
| el_list c k xs : comment_fine c -> trimmed k -> xs <> [] -> Forall item xs -> element (RawList c k xs)
| el_fieldset c k xs : comment_fine c -> trimmed k -> xs <> [] -> Forall entry xs -> element (RawFieldset c k xs).
(** the sections in a section come last *)
Inductive section : raw_t -> Prop :=
| se_section c k els subs : comment_fine c -> trimmed k -> Forall element els -> sections subs ->
    section (RawSection c k (els ++ subs))
with sections : list raw_t -> Prop :=
| se_nil : sections []
| se_cons x l : section x -> sections l -> sections (x :: l).
Definition document (x : raw_t) : Prop :=
  exists els subs, x = RawDocument (els ++ subs) /\ Forall element els /\ sections subs.
