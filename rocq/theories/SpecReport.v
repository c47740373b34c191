(** SpecReport: which lines a report shows, and markup (SPEC for C42-C44).  Mentions only data. *)
From Verif Require Import Base Types Reporter.

(** the tags given to reported lines *)
Definition reported (t : tag) : Prop := t = EMPHASIZE \/ t = INDICATE \/ t = QUESTION.
Definition tagged (s : list (option tag)) (k : nat) : Prop := exists t, nth_error s k = Some (Some t).

(** line [j] is at most two lines away from a reported one *)
Definition close (s : list (option tag)) (j : nat) : Prop :=
  exists k, tagged s k /\ j <= k + 2 /\ k <= j + 2.
(** the same, but the lines after line 0 do not count *)
Definition close_enough (s : list (option tag)) (j : nat) : Prop :=
  exists k, tagged s k /\ j <= k + 2 /\ k <= j + 2 /\ (j <= k \/ 0 < k).
(** three lines above a reported one *)
Definition before_gap (s : list (option tag)) (j : nat) : Prop := tagged s (j + 3).

(** what [s] becomes: reported lines keep their tags, lines [near] them are displayed, one line
    before such a block and the last line become omission marks, nothing else is shown *)
Definition context_shown (near : nat -> Prop) (s s' : list (option tag)) : Prop :=
  length s' = length s /\
  forall j, j < length s ->
    (forall t, nth_error s j = Some (Some t) -> nth_error s' j = Some (Some t)) /\
    (~ tagged s j -> near j -> nth_error s' j = Some (Some DISPLAY)) /\
    (~ tagged s j -> ~ near j -> before_gap s j \/ S j = length s -> nth_error s' j = Some (Some OMISSION)) /\
    (~ tagged s j -> ~ near j -> ~ before_gap s j -> S j <> length s -> nth_error s' j = Some None).

(** the characters that make up tags and attributes *)
Definition markup_char (c : N) : bool := N.eqb c 60 || N.eqb c 62 || N.eqb c 34 || N.eqb c 39.
Definition markup (t : text) : text := filter markup_char t.
(** no character of a piece of text that could be markup *)
Definition inert (t : text) : Prop := forall c, In c t -> c <> 60%N /\ c <> 62%N /\ c <> 34%N /\ c <> 39%N.

(** what a browser makes of escaped text *)
Definition starts (p t : text) : bool := text_eqb (firstn (length p) t) p.
Fixpoint unescape (fuel : nat) (t : text) : text :=
  match fuel with
  | O => []
  | S f =>
      match t with
      | [] => []
      | c :: r =>
          if starts (U "&amp;") t then 38%N :: unescape f (skipn 5 t)
          else if starts (U "&lt;") t then 60%N :: unescape f (skipn 4 t)
          else if starts (U "&gt;") t then 62%N :: unescape f (skipn 4 t)
          else if starts (U "&quot;") t then 34%N :: unescape f (skipn 6 t)
          else if starts (U "&#x27;") t then 39%N :: unescape f (skipn 6 t)
          else c :: unescape f r
      end
  end.
