(** SpecDraw: the rows of an error report, and how each reporter draws them (SPEC for C54). *)
From Verif Require Import Base Types Messages SpecText SpecReport SpecSnippet.

(** why a line is shown: as a neighbour, as what the error is about, as a further part of it, or
    as a place in question *)
Inductive mark := Near | Main | Part | Asked.
(** a line with its number, mark and content, or lines left out *)
Inductive row := Line (n : nat) (m : mark) (t : text) | Dots.

Definition sign (m : mark) : char := match m with Near => 32 | Main => 62 | Part => 42 | Asked => 63 end%N.
Definition html_class (m : mark) : text :=
  match m with Near => [] | Main => U "eno-report-line-emphasized" | Part => U "eno-report-line-indicated" | Asked => U "eno-report-line-questioned" end.
Definition color (m : mark) : text :=
  match m with Near => style 40 | Main => style 30 ++ style 101 | Part | Asked => style 30 ++ style 47 end.

Definition text_drawn (loc : locale) (r : row) (x : text) : Prop :=
  match r with
  | Line n m t => x = [32%N; sign m] ++ rjust (length (gutter loc)) (dec n) ++ U " | " ++ t
  | Dots => x = text_dots loc
  end.
Definition html_drawn (r : row) (x : text) : Prop :=
  match r with
  | Line n m t => exists e, reads_as e t /\ x = html_cells (html_class m) (dec n) e
  | Dots => x = html_dots
  end.
Definition terminal_drawn (w : nat) (r : row) (x : text) : Prop :=
  match r with
  | Line n m t => exists body, painted t body /\ x = color m ++ [32%N; sign m; 32%N] ++ rjust w (dec n) ++ U " " ++ style 0 ++ U " " ++ body
  | Dots => x = terminal_dots w
  end.

(** the report showing [rows] *)
Definition text_report (loc : locale) (src : option text) (rows : list row) (t : text) : Prop :=
  exists ls, Forall2 (text_drawn loc) rows ls /\ t = text_top loc src ++ join [nl] ls.
Definition html_report (loc : locale) (src : option text) (rows : list row) (t : text) : Prop :=
  exists head ls, reads_as head (lc_content_header loc) /\ Forall2 html_drawn rows ls /\
    let body := U "<pre class=""eno-report"">" ++ html_cells [] (lc_gutter_header loc) head ++ join [nl] ls ++ U "</pre>" in
    t = match src with Some (x :: s) => U "<div><div>" ++ (x :: s) ++ U "</div>" ++ body ++ U "</div>" | _ => body end.
Definition terminal_report (src : option text) (rows : list row) (t : text) : Prop :=
  exists w ls, 4 <= w /\ Forall2 (terminal_drawn w) rows ls /\ t = terminal_top w src ++ join [nl] ls.

(** [rows] shows the line with number [n] *)
Definition shows_line (n : nat) (rows : list row) : Prop := exists m t, In (Line n m t) rows.

(** The line of a section that is copied with all its contents carries the deep copy operator. *)
Definition copies_deeply (h : heap) (e : nat) : Prop :=
  0 < e < length h /\ rget (n_ranges (hget h e)) R_deep_copy_operator <> None.
