(** SpecLaid: lines and the ranges recorded for them (SPEC for C53). *)
From Verif Require Import Base Types SpecText.

(** [l] are spans in order, with nothing but white space between and around them *)
Inductive laid (inp : text) : nat -> list (nat * nat) -> nat -> Prop :=
| laid_end i e : i <= e -> blank inp (i, e) -> laid inp i [] e
| laid_more i s l e : i <= fst s -> blank inp (i, fst s) -> fst s <= snd s ->
    laid inp (snd s) l e -> laid inp i (s :: l) e.
(** the ranges [rs], but the line range, make up the line *)
Definition laid_out (inp : text) (rs : ranges) : Prop :=
  exists b e l, rget rs R_line = Some (b, e) /\ (forall x, In x l <-> In x rs /\ fst x <> R_line) /\ laid inp b (map snd l) e.
