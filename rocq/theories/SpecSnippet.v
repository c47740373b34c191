(** SpecSnippet: what the snippet of an error report shows (SPEC for C42). *)
From Verif Require Import Base Types Messages SpecText SpecReport.

(** [t] is the line of the text with number [k], counted from 0 *)
Definition is_line (inp : text) (k : nat) (t : text) : Prop :=
  exists b e, begins_line inp b /\ b <= e /\ e <= length inp /\ ends_line inp e /\ single_line inp (b, e) /\
    line_feeds_before inp b = k /\ t = at_range inp (b, e).

Definition blank_text (t : text) : Prop := forallb is_space t = true.
Definition comment_text (t : text) : Prop := exists s r, t = s ++ 62%N :: r /\ blank_text s.

(** lines a report of a parse error may leave out *)
Definition lost_line (t : text) : Prop := blank_text t \/ comment_text t.

(** [content] stands for line [k]: it is that line, or nothing where the line is [lost] *)
Definition stands_for (lost : text -> Prop) (inp : text) (k : nat) (content : text) : Prop :=
  exists t, is_line inp k t /\ (content = t \/ content = [] /\ lost t).

(** in the report of a parse error, an empty line may also be shown behind the last line *)
Definition stands_or_past (lost : text -> Prop) (inp : text) (k : nat) (content : text) : Prop :=
  stands_for lost inp k content \/ content = [] /\ k = S (line_feeds_before inp (length inp)).

(** Rows of a snippet, each a line with a number or an omission mark, in ascending order.
    [row k content x]: row [x] shows number [k] and [content]. *)
Inductive rows (row : nat -> text -> text -> Prop) (dots : text) (stands : nat -> text -> Prop) : nat -> list text -> Prop :=
| rows_end k : rows row dots stands k []
| rows_line k j content x ls : k <= j -> stands j content -> row (j + 1) content x -> rows row dots stands (S j) ls -> rows row dots stands k (x :: ls)
| rows_dots k j ls : k <= j -> rows row dots stands (S j) ls -> rows row dots stands k (dots :: ls).

(** * Plain text *)

Definition gutter (loc : locale) : text := rjust 5 (lc_gutter_header loc).
Definition text_row (loc : locale) (n : nat) (content x : text) : Prop :=
  exists mark, In mark [32; 62; 42; 63]%N /\ x = [32%N; mark] ++ rjust (length (gutter loc)) (dec n) ++ U " | " ++ content.
Definition text_dots (loc : locale) : text := rjust (length (gutter loc) + 1) (U "...").
Definition text_top (loc : locale) (src : option text) : text :=
  match src with Some s => U "-- " ++ s ++ U " --" ++ [nl; nl] | None => [] end ++ U "  " ++ gutter loc ++ U " | " ++ lc_content_header loc ++ [nl].
Definition text_snippet (loc : locale) (src : option text) (stands : nat -> text -> Prop) (t : text) : Prop :=
  exists ls, t = text_top loc src ++ join [nl] ls /\ rows (text_row loc) (text_dots loc) stands 0 ls.

(** * HTML *)

Definition html_div (cls body : text) : text := U "<div class=""" ++ cls ++ U """>" ++ body ++ U "</div>".
Definition html_cells (cls num body : text) : text :=
  html_div (U "eno-report-line " ++ cls) (html_div (U "eno-report-gutter") (rjust 10 num) ++ html_div (U "eno-report-content") body).
Definition reads_as (e t : text) : Prop := inert e /\ exists fuel, unescape fuel e = t.
Definition html_row (n : nat) (content x : text) : Prop :=
  exists cls e, In cls [[]; U "eno-report-line-emphasized"; U "eno-report-line-indicated"; U "eno-report-line-questioned"] /\ reads_as e content /\
    x = html_cells cls (dec n) e.
Definition html_dots : text := html_cells [] (U "...") (U "...").
Definition html_snippet (loc : locale) (src : option text) (stands : nat -> text -> Prop) (t : text) : Prop :=
  exists head ls, reads_as head (lc_content_header loc) /\ rows html_row html_dots stands 0 ls /\
    let body := U "<pre class=""eno-report"">" ++ html_cells [] (lc_gutter_header loc) head ++ join [nl] ls ++ U "</pre>" in
    t = match src with Some (x :: s) => U "<div><div>" ++ (x :: s) ++ U "</div>" ++ body ++ U "</div>" | _ => body end.

(** * Terminal *)

(** the escape sequence for style [n], and non-empty sequences of them *)
Definition style (n : nat) : text := 27%N :: 91%N :: dec n ++ [109%N].
Inductive paint : text -> Prop :=
| paint_one n : paint (style n)
| paint_more n a : paint a -> paint (style n ++ a).
(** [x] shows [t], with parts of it enclosed in styles *)
Inductive painted : text -> text -> Prop :=
| painted_end : painted [] []
| painted_char c t x : painted t x -> painted (c :: t) (c :: x)
| painted_part a s t x : paint a -> painted t x -> painted (s ++ t) (a ++ s ++ style 0 ++ x).
Definition terminal_row (w n : nat) (content x : text) : Prop :=
  exists a mark body, paint a /\ In mark [32; 62; 42; 63]%N /\ painted content body /\
    x = a ++ [32%N; mark; 32%N] ++ rjust w (dec n) ++ U " " ++ style 0 ++ U " " ++ body.
Definition terminal_dots (w : nat) : text := style 2 ++ style 40 ++ rjust (w + 2) (U "...") ++ U "  " ++ style 0.
Definition terminal_top (w : nat) (src : option text) : text :=
  match src with
  | Some (x :: s) => style 30 ++ style 101 ++ U " > " ++ rjust w (U " ") ++ U " " ++ style 0 ++ U " " ++ style 1 ++ (x :: s) ++ style 0 ++ [nl]
  | _ => []
  end.
(** all numbers are written in the same width, at least 4 *)
Definition terminal_snippet (src : option text) (stands : nat -> text -> Prop) (t : text) : Prop :=
  exists w ls, 4 <= w /\ t = terminal_top w src ++ join [nl] ls /\ rows (terminal_row w) (terminal_dots w) stands 0 ls.
