(** SpecWritten: the ways to write an instruction (SPEC for C57).  A grammar that produces texts, as opposed
    to [Scan], which reads them. *)
From Verif Require Import Base SpecText SpecSaid.

(** white space within a line; white space that may break lines *)
Definition gap (w : text) : Prop := forallb hspace w = true.
Definition wide (w : text) : Prop := forallb is_space w = true.
Definition run (c : text) (n : nat) : text := concat (repeat c n).
Definition starts_with (c t : text) : Prop := exists r, t = c ++ r.
Definition has (c t : text) : Prop := exists a b, t = a ++ c ++ b.

(** behind an operator: white space, or a value in white space *)
Inductive value_of : text -> option text -> Prop :=
| no_value w : gap w -> value_of w None
| a_value a v z : gap a -> trimmed v -> gap z -> value_of (a ++ v ++ z) (Some v).

(** a key in backticks *)
Inductive escaped : text -> text -> Prop :=
| in_ticks n a k z : 1 <= n -> gap a -> trimmed k -> gap z -> ~ has (run (U "`") n) k -> (a = [] -> ~ starts_with (U "`") k) ->
    escaped (run (U "`") n ++ a ++ k ++ z ++ run (U "`") n) k.

(** a key of an element or entry, a key of a section *)
Definition none_of (cs t : text) : Prop := forall c, In c cs -> ~ In c t.
Definition element_key (kt k : text) : Prop :=
  kt = k /\ trimmed k /\ none_of (U ">#-`\|:=<") (firstn 1 k) /\ none_of (U ":=<") k \/ escaped kt k.
Definition section_key (kt k : text) : Prop :=
  kt = k /\ trimmed k /\ none_of (U "`<") (firstn 1 k) /\ none_of (U "<") k \/ escaped kt k.

(** the line that begins and the line that ends a multiline field *)
Inductive dashed (n : nat) (k : text) : text -> Prop :=
| dashed_line a b z : gap a -> gap b -> gap z -> (b = [] -> ~ starts_with (U "-") k) -> dashed n k (a ++ run (U "-") n ++ b ++ k ++ z).

Inductive instruction : text -> said -> Prop :=
| in_empty w : gap w -> instruction w SaysEmpty
| in_comment a b t z : gap a -> gap b -> trimmed t -> gap z ->
    instruction (a ++ U ">" ++ b ++ t ++ z) (SaysComment (length a + 1 + length b) (Some t))
| in_empty_comment a z : gap a -> gap z -> instruction (a ++ U ">" ++ z) (SaysComment 0 None)
| in_direct a r v : gap a -> value_of r v -> instruction (a ++ U "|" ++ r) (SaysContinuation false v)
| in_spaced a r v : gap a -> value_of r v -> instruction (a ++ U "\" ++ r) (SaysContinuation true v)
| in_item a r v : gap a -> value_of r v -> ~ starts_with (U "-") r -> instruction (a ++ U "-" ++ r) (SaysItem v)
| in_field a kt k s r v : gap a -> element_key kt k -> wide s -> value_of r v -> instruction (a ++ kt ++ s ++ U ":" ++ r) (SaysField k v)
| in_entry a kt k s r v : gap a -> element_key kt k -> wide s -> value_of r v -> instruction (a ++ kt ++ s ++ U "=" ++ r) (SaysEntry k v)
| in_copy a kt k s s' t z : gap a -> element_key kt k -> wide s -> wide s' -> trimmed t -> gap z ->
    instruction (a ++ kt ++ s ++ U "<" ++ s' ++ t ++ z) (SaysCopy k t)
| in_section a n s kt k z : gap a -> 1 <= n -> wide s -> section_key kt k -> (s = [] -> ~ starts_with (U "#") kt) -> gap z ->
    instruction (a ++ run (U "#") n ++ s ++ kt ++ z) (SaysSection n k None)
| in_section_copy a n s kt k b (deep : bool) b' t z : gap a -> 1 <= n -> wide s -> section_key kt k -> (s = [] -> ~ starts_with (U "#") kt) ->
    gap b -> gap b' -> trimmed t -> gap z -> (deep = false -> b' = [] -> ~ starts_with (U "<") t) ->
    instruction (a ++ run (U "#") n ++ s ++ kt ++ b ++ (if deep then U "<<" else U "<") ++ b' ++ t ++ z) (SaysSection n k (Some (deep, t)))
| in_empty_multiline n k l l' : 2 <= n -> trimmed k -> dashed n k l -> dashed n k l' ->
    instruction (l ++ nl :: l') (SaysMultiline k None)
| in_multiline n k l v l' : 2 <= n -> trimmed k -> dashed n k l -> dashed n k l' ->
    (forall x y z, nl :: v ++ [nl] = x ++ nl :: y ++ nl :: z -> ~ In nl y -> ~ dashed n k y) ->
    instruction (l ++ nl :: v ++ nl :: l') (SaysMultiline k (Some v)).

(** instructions, one below the other *)
Inductive written : text -> list said -> Prop :=
| w_end : written [] []
| w_last t x : t <> [] -> instruction t x -> written t [x]
| w_more t x d l : instruction t x -> written d l -> written (t ++ nl :: d) (x :: l).
