(** SpecMarks: which lines a report shows, and how they are marked (SPEC for C55). *)
From Verif Require Import Base Types Messages Analyzer Reporter Faults SpecText SpecTree SpecResolve SpecLookup SpecReport SpecSnippet SpecDraw.

(** Lines are counted from 0 here; rows show the number plus one. *)

(** * Which lines are shown around the marked ones *)

Section Layout.
  Context (lc : nat) (mk : nat -> mark -> Prop) (content : nat -> text -> Prop).

  Definition marked (j : nat) : Prop := exists m, mk j m.
  (** at most two lines before a marked line, or behind a marked line other than the first *)
  Definition near (j : nat) : Prop := exists k, marked k /\ (j < k <= j + 2 \/ 0 < k < j /\ j <= k + 2).

  (** what becomes of line [j] *)
  Inductive cell (j : nat) : list row -> Prop :=
  | cell_marked m t : mk j m -> content j t -> cell j [Line (j + 1) m t]
  | cell_near t : ~ marked j -> near j -> content j t -> cell j [Line (j + 1) Near t]
  | cell_dots : ~ marked j -> ~ near j -> marked (j + 3) \/ j + 1 = lc -> cell j [Dots]
  | cell_hidden : ~ marked j -> ~ near j -> ~ marked (j + 3) -> j + 1 <> lc -> cell j [].

  Definition laid_out (rows : list row) : Prop :=
    exists cells, length cells = lc /\ rows = concat cells /\ forall j, j < lc -> cell j (nth j cells []).
End Layout.
(** if nothing is marked, everything is in question *)
Definition or_all (mk : nat -> mark -> Prop) (j : nat) (m : mark) : Prop :=
  mk j m \/ (forall k n, ~ mk k n) /\ m = Asked.

(** line [j] as recorded, or nothing where no instruction or comment begins *)
Definition recorded (c : ctx) : list (nat * (nat * nat)) := heap_nums (c_heap c) ++ map leaf_num (c_meta c).
Definition content (c : ctx) (j : nat) (t : text) : Prop :=
  (exists s, In (j, s) (recorded c) /\ t = at_range (c_input c) s) \/ (forall s, ~ In (j, s) (recorded c)) /\ t = [].

(** * Which lines are marked *)

(** the lines of [e] with all it contains; those behind its first one, with what is between them *)
Definition line_of (h : heap) (e k : nat) : Prop :=
  exists x, (x = e \/ encloses h e x) /\ (k = n_line (hget h x) \/ exists l, In l (rest (hget h x)) /\ k = l_line l).
Definition inside (h : heap) (e j : nat) : Prop := n_line (hget h e) < j /\ exists k, line_of h e k /\ j <= k.

Inductive element_marks (h : heap) (e : nat) : nat -> mark -> Prop :=
| em_main : element_marks h e (n_line (hget h e)) Main
| em_part j : inside h e j -> element_marks h e j Part.

(** the elements of section [p] before its first subsection *)
Definition before_sections (h : heap) (p : nat) (l : list nat) : Prop :=
  exists l2, n_elements (hget h p) = l ++ l2 /\ (forall x, In x l -> n_type (hget h x) <> SECTION) /\
    match l2 with [] => True | s :: _ => n_type (hget h s) = SECTION end.
Definition first_section (h : heap) (p s : nat) : Prop := exists l l2, n_elements (hget h p) = l ++ s :: l2 /\ before_sections h p l.

(** something is missing in [p] *)
Inductive missing_marks (h : heap) (p : nat) : nat -> mark -> Prop :=
| mm_self : n_type (hget h p) <> DOCUMENT -> missing_marks h p (n_line (hget h p)) Part
| mm_asked j : n_type (hget h p) <> DOCUMENT -> n_type (hget h p) <> SECTION -> inside h p j -> missing_marks h p j Asked
| mm_element l x j : n_type (hget h p) = SECTION -> before_sections h p l -> In x l -> inside h x j -> missing_marks h p j Asked
| mm_between l j : n_type (hget h p) = SECTION -> before_sections h p l -> n_line (hget h p) < j -> (forall x, In x l -> ~ inside h x j) ->
    (exists x k, In x l /\ line_of h x k /\ j <= k) \/ (exists s, first_section h p s /\ j < n_line (hget h s)) -> missing_marks h p j Part.

Inductive complaint_marks (h : heap) : complaint -> nat -> mark -> Prop :=
| cm_comment m e l : In l (match n_comments (hget h e) with Some ls => ls | None => [] end) -> complaint_marks h (BadComment m e) (l_line l) Main
| cm_commented m e : complaint_marks h (BadComment m e) (n_line (hget h e)) Part
| cm_element m e j k : element_marks h e j k -> complaint_marks h (BadElement m e) j k
| cm_unexpected m e j k : element_marks h e j k -> complaint_marks h (NotExpected m e) j k
| cm_kind key e q j k : element_marks h e j k -> complaint_marks h (OtherKind key e q) j k
| cm_no_value e j k : element_marks h e j k -> complaint_marks h (NoValue e) j k
| cm_key m e : complaint_marks h (BadKey m e) (n_line (hget h e)) Main
| cm_no_comment e : complaint_marks h (NoComment e) (n_line (hget h e)) Main
| cm_copy m e : n_mirror (hget h e) <> None -> complaint_marks h (BadValue m e) (n_line (hget h e)) Main
| cm_lines m e ls l : n_mirror (hget h e) = None -> n_type (hget h e) = MULTILINE_FIELD_BEGIN -> n_lines (hget h e) = Some ls -> In l ls ->
    complaint_marks h (BadValue m e) (l_line l) Main
| cm_value m e j k : n_mirror (hget h e) = None -> n_type (hget h e) <> MULTILINE_FIELD_BEGIN \/ n_lines (hget h e) = None -> element_marks h e j k ->
    complaint_marks h (BadValue m e) j k
| cm_missing key p q j k : missing_marks h p j k -> complaint_marks h (NoElement key p q) j k
| cm_many key es q l1 e l2 j k : es = l1 ++ e :: l2 -> element_marks h e j k -> (forall x n, In x l2 -> ~ element_marks h x j n) ->
    complaint_marks h (TooMany key es q) j k.

(** * Texts that do not parse *)

Definition on (k : nat) (m : mark) (j : nat) (n : mark) : Prop := j = k /\ n = m.
(** [mk2], and [mk1] where [mk2] says nothing *)
Definition over (mk1 mk2 : nat -> mark -> Prop) (j : nat) (m : mark) : Prop := mk2 j m \/ (forall n, ~ mk2 j n) /\ mk1 j m.

(** error [p] in a text of [lc] lines *)
Definition fault_marks (h : heap) (lc : nat) (p : perr) : nat -> mark -> Prop :=
  match p with
  | PInvalidLine l | PMissingElementForContinuation l | PMissingListForItem l | PMissingFieldsetForEntry l => on (l_line l) Main
  | PLayerSkip l s => over (on (l_line l) Main) (fun j m => n_type (hget h s) <> DOCUMENT /\ on (n_line (hget h s)) Part j m)
  | PUnterminatedMultiline e => over (on (n_line (hget h e)) Main) (fun j m => n_line (hget h e) < j < lc /\ m = Part)
  | PMissingListForItemNode e | PMissingFieldsetForEntryNode e | PNonSectionNotFound e | PSectionNotFound e => on (n_line (hget h e)) Main
  | PCyclic e chain => fun j m => exists l1 l2, chain = l1 ++ e :: l2 /\ ~ In e l1 /\
      exists copy, (n_template (hget h (last (e :: l2) 0)) <> None /\ copy = last (e :: l2) 0 \/
                    n_template (hget h (last (e :: l2) 0)) = None /\ copy = e) /\
        over (on (n_line (hget h copy)) Main) (fun j m => exists x, In x (e :: l2) /\ x <> copy /\ on (n_line (hget h x)) Part j m) j m
  | PTwoTemplates copy a b => over (on (n_line (hget h copy)) Main) (fun j m => (j = n_line (hget h a) \/ j = n_line (hget h b)) /\ m = Asked)
  end.

Definition drawn (rk : reporter_kind) (loc : locale) (src : option text) (rows : list row) (t : text) : Prop :=
  match rk with
  | TextReporter => text_report loc src rows t
  | HtmlReporter => html_report loc src rows t
  | TerminalReporter => terminal_report src rows t
  end.
