(** SpecBroken: what a text says up to the first place where the line grammar fails (SPEC for C57 and C59). *)
From Verif Require Import Base Scan SpecText SpecSaid.

(** a line that is no instruction; a multiline field whose end is nowhere *)
Inductive broken := BadLine | NeverClosed.

Inductive breaks (inp : text) : nat -> list said -> broken -> Prop :=
| bk_line i : i < length inp -> scan i (skipn i inp) = None -> breaks inp i [] BadLine
| bk_open i op k e : i < length inp -> scan i (skipn i inp) = Some (TMultiline op k, e) ->
    find_closing (at_range inp op) (at_range inp k) e (skipn e inp) = None -> breaks inp i [] NeverClosed
| bk_after i t e x l b : i < length inp -> scan i (skipn i inp) = Some (t, e) -> meaning inp i t = Some x ->
    breaks inp (S e) l b -> breaks inp i (x :: l) b
| bk_multiline i op k e stop o2 k2 e2 l b : i < length inp -> scan i (skipn i inp) = Some (TMultiline op k, e) ->
    find_closing (at_range inp op) (at_range inp k) e (skipn e inp) = Some (stop, (o2, k2, e2)) ->
    breaks inp (S e2) l b ->
    breaks inp i (SaysMultiline (at_range inp k) (if Nat.eqb stop e then None else Some (slice inp (S e) stop)) :: l) b.

Definition tells_until (inp : text) (l : list (list (nat * option text) * said)) (b : broken) : Prop :=
  exists l0, breaks inp 0 l0 b /\ l = noted [] l0.
