(** Reporter: model of [reporters/reporter.py], [text_reporter.py], [html_reporter.py],
    [terminal_reporter.py], and the exception/result types used from here on. *)
From Verif Require Import Base Types Messages.

(** errors/selections.py:24-31, error_types.py:1-9 *)
Record cursor_t := MkCursor { cu_column : nat; cu_index : nat; cu_line : nat }.
Record selection_t := MkSel { sel_from : cursor_t; sel_to : cursor_t }.
Record eno_error := MkErr { er_text : text; er_snippet : text; er_selection : selection_t }.

(** Python exceptions as values.  [UserExn n] is any exception other than ValueError raised by a
    user supplied loader; [Fuel] stands for running out of model fuel (Python's RecursionError
    when the real recursion is infinite). *)
Inductive exn :=
| ParseError (e : eno_error)
| ValidationError (e : eno_error)
| LookupIndexError   (* the IndexError raised on purpose by lookup; its text is not modelled *)
| KeyError | TypeError | AttributeError | IndexError | UnboundLocalError
| UserExn (n : N)
| Fuel.

Inductive res (A : Type) := Ok (a : A) | Raise (e : exn).
Arguments Ok {A} _. Arguments Raise {A} _.
Definition bind {A B} (x : res A) (f : A -> res B) : res B :=
  match x with Ok a => f a | Raise e => Raise e end.
Notation "'do' x <- a ; b" := (bind a (fun x => b)) (at level 200, x pattern, a at level 100, b at level 200).

Fixpoint foldM {A S} (f : S -> A -> res S) (l : list A) (s : S) : res S :=
  match l with
  | [] => Ok s
  | x :: l' => do s' <- f s x; foldM f l' s'
  end.

Inductive reporter_kind := TextReporter | HtmlReporter | TerminalReporter.

(** context.py:8-18: the context after analysis. *)
Record ctx := MkCtx {
  c_input : text;
  c_locale : locale;
  c_reporter : reporter_kind;
  c_source : option text;
  c_heap : heap;
  c_meta : list leaf;
  c_line_count : nat
}.
Definition with_heap (c : ctx) (h : heap) : ctx :=
  MkCtx (c_input c) (c_locale c) (c_reporter c) (c_source c) h (c_meta c) (c_line_count c).

(** [instruction['line']]; the document has no 'line' (analyzer.py:14-17). *)
Definition node_line (n : node) : res nat :=
  if itype_eqb (n_type n) DOCUMENT then Raise KeyError else Ok (n_line n).

(** reporter.py:3-7 *)
Inductive tag := DISPLAY | EMPHASIZE | INDICATE | OMISSION | QUESTION.
Definition tag_eqb (a b : tag) : bool :=
  match a, b with
  | DISPLAY, DISPLAY | EMPHASIZE, EMPHASIZE | INDICATE, INDICATE
  | OMISSION, OMISSION | QUESTION, QUESTION => true
  | _, _ => false
  end.

(** What the printers read of an indexed instruction: 'type' and 'ranges'. *)
Record rinfo := MkInfo { ri_type : option itype; ri_ranges : ranges }.
Definition leaf_info (l : leaf) : rinfo := MkInfo (l_type l) (l_ranges l).
Definition node_info (n : node) : rinfo := MkInfo (Some (n_type n)) (n_ranges n).

Definition rindex := list (option rinfo).
Definition snip := list (option tag).

(** [l[i] = x] for a Python list and [i >= 0] *)
Definition aset {A} (l : list A) (i : nat) (x : A) : res (list A) :=
  if Nat.ltb i (length l) then Ok (upd l i (fun _ => x)) else Raise IndexError.

(** reporter.py:19-22, and the same loop over continuations and lines *)
Definition index_leaves (o : option (list leaf)) (ix : rindex) : res rindex :=
  match o with
  | None => Ok ix
  | Some ls => foldM (fun ix l => aset ix (l_line l) (Some (leaf_info l))) ls ix
  end.

(** reporter.py:46-55, 57-66: items / entries *)
Definition index_continuables (h : heap) (o : option (list nat)) (ix : rindex) : res rindex :=
  match o with
  | None => Ok ix
  | Some ids =>
      foldM (fun ix i =>
        let n := hget h i in
        do ix <- index_leaves (n_comments n) ix;
        do ix <- aset ix (n_line n) (Some (node_info n));
        index_leaves (n_conts n) ix) ids ix
  end.

(** reporter.py:25-66 [traverse] *)
Fixpoint traverse (fuel : nat) (h : heap) (s : nat) (ix : rindex) : res rindex :=
  match fuel with
  | O => Raise Fuel
  | S f =>
      foldM (fun ix e =>
        let n := hget h e in
        do ix <- index_leaves (n_comments n) ix;
        do ix <- aset ix (n_line n) (Some (node_info n));
        match n_type n with
        | SECTION => traverse f h e ix
        | FIELD => index_leaves (n_conts n) ix
        | MULTILINE_FIELD_BEGIN =>
            do ix <- match n_end n with
                     | Some l => aset ix (l_line l) (Some (leaf_info l))
                     | None => Ok ix
                     end;
            index_leaves (n_lines n) ix
        | LIST => index_continuables h (n_items n) ix
        | FIELDSET => index_continuables h (n_entries n) ix
        | _ => Ok ix
        end) (n_elements (hget h s)) ix
  end.

(** reporter.py:10-15, 68-71 *)
Definition build_index (c : ctx) : res rindex :=
  do ix <- traverse (S (length (c_heap c))) (c_heap c) 0 (repeat None (c_line_count c));
  foldM (fun ix l => aset ix (l_line l) (Some (leaf_info l))) (c_meta c) ix.

(** A reporter instance: its context, index and tags. *)
Record reporter := MkReporter { r_ctx : ctx; r_index : rindex; r_snip : snip }.

(** reporter.py:10-15.  Constructing a reporter. *)
Definition new_reporter (c : ctx) : res reporter :=
  do ix <- build_index c;
  Ok (MkReporter c ix (repeat None (c_line_count c))).

(** [while scan_line < stop: snippet[scan_line] = tag; scan_line += 1] *)
Fixpoint tag_gap (n scan : nat) (t : tag) (s : snip) : res snip :=
  match n with
  | O => Ok s
  | S n' => do s <- aset s scan (Some t); tag_gap n' (scan + 1) t s
  end.

(** reporter.py:73-87; returns (tags, scan_line) *)
Definition tag_continuations (n : node) (t : tag) (s : snip) : res (snip * nat) :=
  match n_conts n with
  | None => Ok (s, n_line n + 1)
  | Some cs =>
      foldM (fun (a : snip * nat) l =>
        let '(s, scan) := a in
        do s <- tag_gap (l_line l - scan) scan t s;
        do s <- aset s (l_line l) (Some t);
        Ok (s, scan + (l_line l - scan) + 1)) cs (s, n_line n + 1)
  end.

(** reporter.py:89-104 *)
Definition tag_continuables (h : heap) (n : node) (coll : option (list nat)) (t : tag) (s : snip)
  : res (snip * nat) :=
  match coll with
  | None => Ok (s, n_line n + 1)
  | Some ids =>
      foldM (fun (a : snip * nat) i =>
        let '(s, scan) := a in
        let x := hget h i in
        do s <- tag_gap (n_line x - scan) scan t s;
        do s <- aset s (n_line x) (Some t);
        tag_continuations x t s) ids (s, n_line n + 1)
  end.

(** reporter.py:106-143 [_tag_element] / [_tag_section].  The returned scan line is Python's
    implicit [None] for element types without a branch; comparing it afterwards
    ([None < int], reporter.py:132) is a TypeError. *)
Fixpoint tag_element (fuel : nat) (h : heap) (e : nat) (t : tag) (s : snip)
  : res (snip * option nat) :=
  match fuel with
  | O => Raise Fuel
  | S f =>
      let n := hget h e in
      match n_type n with
      | FIELD | LIST_ITEM | FIELDSET_ENTRY =>
          do (s, sc) <- tag_continuations n t s; Ok (s, Some sc)
      | LIST => do (s, sc) <- tag_continuables h n (n_items n) t s; Ok (s, Some sc)
      | FIELDSET =>
          match n_entries n with
          | None => Ok (s, None)
          | Some _ => do (s, sc) <- tag_continuables h n (n_entries n) t s; Ok (s, Some sc)
          end
      | MULTILINE_FIELD_BEGIN =>
          do s <- match n_lines n with
                  | Some ls => foldM (fun s l => aset s (l_line l) (Some t)) ls s
                  | None => Ok s
                  end;
          match n_end n with
          | Some l => do s <- aset s (l_line l) (Some t); Ok (s, Some (l_line l + 1))
          | None =>
              match n_lines n with
              | Some ls => Ok (s, Some (l_line (last ls (MkLeaf None 0 [] None false)) + 1))
              | None => Ok (s, Some (n_line n + 1))
              end
          end
      | SECTION =>
          (* _tag_section(element, tag), recursive=True *)
          foldM (fun (a : snip * option nat) e =>
            let '(s, sc) := a in
            match sc with
            | None => Raise TypeError
            | Some scan =>
                let x := hget h e in
                do s <- tag_gap (n_line x - scan) scan INDICATE s;
                do s <- aset s (n_line x) (Some INDICATE);
                tag_element f h e t s
            end) (n_elements n) (s, Some (n_line n + 1))
      | _ => Ok (s, None)
      end
  end.

(** reporter.py:128-143 with recursive=False: stops at the first subsection (after tagging the
    gap before it). *)
Fixpoint tag_flat (fuel : nat) (h : heap) (els : list nat) (t : tag) (s : snip)
  (sc : option nat) : res snip :=
  match els with
  | [] => Ok s
  | e :: els' =>
      match sc with
      | None => Raise TypeError
      | Some scan =>
          let x := hget h e in
          do s <- tag_gap (n_line x - scan) scan INDICATE s;
          if itype_eqb (n_type x) SECTION then Ok s
          else
            do s <- aset s (n_line x) (Some INDICATE);
            do (s, sc') <- tag_element fuel h e t s;
            tag_flat fuel h els' t s sc'
      end
  end.

Definition with_snip (r : reporter) (s : snip) : reporter := MkReporter (r_ctx r) (r_index r) s.
Definition r_heap (r : reporter) : heap := c_heap (r_ctx r).
Definition tfuel (r : reporter) : nat := S (length (r_heap r)).

(** reporter.py:145-147, 149-151, 173-176 *)
Definition mark_line (r : reporter) (line : nat) (t : tag) : res reporter :=
  do s <- aset (r_snip r) line (Some t); Ok (with_snip r s).
Definition mark_node (r : reporter) (e : nat) (t : tag) : res reporter :=
  do l <- node_line (hget (r_heap r) e); mark_line r l t.
Definition indicate_line (r : reporter) (e : nat) := mark_node r e INDICATE.
Definition question_line (r : reporter) (e : nat) := mark_node r e QUESTION.
Definition report_line (r : reporter) (e : nat) := mark_node r e EMPHASIZE.
Definition report_leaf (r : reporter) (l : leaf) := mark_line r (l_line l) EMPHASIZE.
Definition indicate_leaf (r : reporter) (l : leaf) := mark_line r (l_line l) INDICATE.

(** reporter.py:153-158 *)
Definition report_comments (r : reporter) (e : nat) : res reporter :=
  do r <- mark_node r e INDICATE;
  match n_comments (hget (r_heap r) e) with
  | None => Raise KeyError
  | Some cs => foldM report_leaf cs r
  end.

(** reporter.py:160-164 *)
Definition report_element (r : reporter) (e : nat) : res reporter :=
  do r <- mark_node r e EMPHASIZE;
  do (s, _) <- tag_element (tfuel r) (r_heap r) e INDICATE (r_snip r);
  Ok (with_snip r s).

(** reporter.py:166-171 *)
Definition report_elements (r : reporter) (es : list nat) : res reporter := foldM report_element es r.

(** reporter.py:178-182 *)
Definition report_multiline_value (r : reporter) (e : nat) : res reporter :=
  match n_lines (hget (r_heap r) e) with
  | None => Raise KeyError
  | Some ls => foldM report_leaf ls r
  end.

(** reporter.py:184-193 *)
Definition report_missing_element (r : reporter) (parent : nat) : res reporter :=
  let n := hget (r_heap r) parent in
  do r <- (if itype_eqb (n_type n) DOCUMENT then Ok r else mark_line r (n_line n) INDICATE);
  if itype_eqb (n_type n) SECTION then
    do s <- tag_flat (tfuel r) (r_heap r) (n_elements n) QUESTION (r_snip r) (Some (n_line n + 1));
    Ok (with_snip r s)
  else
    do (s, _) <- tag_element (tfuel r) (r_heap r) parent QUESTION (r_snip r);
    Ok (with_snip r s).

(** reporter.py:195-215: completing the tags.  [shown s j]: line [j] is tagged with something
    other than DISPLAY. *)
Definition shown (s : snip) (j : nat) : bool :=
  match nth_error s j with Some (Some t) => negb (tag_eqb t DISPLAY) | _ => false end.

Definition complete_line (lc : nat) (s : snip) (line : nat) : snip :=
  match nth_error s line with
  | Some None =>
      if (Nat.ltb (line + 2) lc && shown s (line + 2)) || (Nat.ltb 2 line && shown s (line - 2)) ||
         (Nat.ltb (line + 1) lc && shown s (line + 1)) || (Nat.ltb 1 line && shown s (line - 1))
      then upd s line (fun _ => Some DISPLAY)
      else if Nat.ltb (line + 3) lc && shown s (line + 3)
      then upd s line (fun _ => Some OMISSION)
      else s
  | _ => s
  end.

Definition complete (lc : nat) (s : snip) : res snip :=
  if forallb (fun t => negb (opt_is t)) s then Ok (map (fun _ => Some QUESTION) s)
  else
    let s' := fold_left (complete_line lc) (seq 0 (length s)) s in
    match rev s' with
    | [] => Raise IndexError
    | None :: _ => Ok (upd s' (length s' - 1) (fun _ => Some OMISSION))
    | Some _ :: _ => Ok s'
    end.

(** [context.input[ranges['line'][BEGIN]:ranges['line'][END]]] *)
Definition line_content (c : ctx) (ri : rinfo) : res text :=
  match rget (ri_ranges ri) R_line with
  | Some (b, e) => Ok (slice (c_input c) b e)
  | None => Raise KeyError
  end.

Definition info_at (r : reporter) (line : nat) : option rinfo :=
  match nth_error (r_index r) line with Some (Some i) => Some i | _ => None end.

Local Open Scope string_scope.
Local Open Scope list_scope.

(** text_reporter.py:4-9, terminal_reporter.py:17-22 *)
Definition indicator (t : tag) : text :=
  match t with
  | DISPLAY => U " " | EMPHASIZE => U ">" | INDICATE => U "*" | QUESTION => U "?"
  | OMISSION => U ""   (* not in the dict; never asked for: omissions are printed separately *)
  end.

(** text_reporter.py:15-21 *)
Definition gutter_header (c : ctx) : text := rjust 5 (lc_gutter_header (c_locale c)).
Definition gutter_width (c : ctx) : nat := length (gutter_header c) + 3.
Definition text_header (c : ctx) : text :=
  (match c_source c with Some s => U "-- " ++ s ++ U " --" ++ [nl; nl] | None => [] end) ++
  U "  " ++ gutter_header c ++ U " | " ++ lc_content_header (c_locale c) ++ [nl].

(** text_reporter.py:23-35 *)
Definition text_line (r : reporter) (line : nat) (t : tag) : res text :=
  let c := r_ctx r in
  match t with
  | OMISSION => Ok (repeat 32%N (gutter_width c - 5) ++ U "...")
  | _ =>
      do content <- match info_at r line with None => Ok [] | Some i => line_content c i end;
      Ok (U " " ++ indicator t ++ rjust (gutter_width c - 3) (dec (line + 1)) ++ U " | " ++ content)
  end.

(** html.escape(s) (standard library, quote=True) *)
Definition escape_char (c : char) : text :=
  if N.eqb c 38 then U "&amp;"
  else if N.eqb c 60 then U "&lt;"
  else if N.eqb c 62 then U "&gt;"
  else if N.eqb c 34 then U "&quot;"
  else if N.eqb c 39 then U "&#x27;"
  else [c].
Definition escape (s : text) : text := flat_map escape_char s.

(** html_reporter.py:30-36 *)
Definition html_markup (gutter content tag_class : text) : text :=
  U "<div class=""eno-report-line " ++ tag_class ++ U """>" ++
  U "<div class=""eno-report-gutter"">" ++ rjust 10 gutter ++ U "</div>" ++
  U "<div class=""eno-report-content"">" ++ escape content ++ U "</div>" ++
  U "</div>".

(** html_reporter.py:8-28 *)
Definition html_line (r : reporter) (line : nat) (t : tag) : res text :=
  let c := r_ctx r in
  match t with
  | OMISSION => Ok (html_markup (U "...") (U "...") [])
  | _ =>
      do content <- match info_at r line with None => Ok [] | Some i => line_content c i end;
      Ok (html_markup (dec (line + 1)) content
            (match t with
             | EMPHASIZE => U "eno-report-line-emphasized"
             | INDICATE => U "eno-report-line-indicated"
             | QUESTION => U "eno-report-line-questioned"
             | _ => [] end))
  end.

(** terminal_reporter.py:4-46 *)
Definition esc (s : text) : text := 27%N :: s.
Definition RESET := esc (U "[0m").
Definition BOLD := esc (U "[1m").
Definition DIM := esc (U "[2m").
Definition BLACK := esc (U "[30m").
Definition BRIGHT_BLACK := esc (U "[90m").
Definition WHITE := esc (U "[37m").
Definition BRIGHT_WHITE := esc (U "[97m").
Definition BRIGHT_BLACK_BACKGROUND := esc (U "[40m").
Definition BRIGHT_RED_BACKGROUND := esc (U "[101m").
Definition WHITE_BACKGROUND := esc (U "[47m").

Definition gutter_style (t : tag) : text :=
  match t with
  | EMPHASIZE => BLACK ++ BRIGHT_RED_BACKGROUND
  | INDICATE | QUESTION => BLACK ++ WHITE_BACKGROUND
  | _ => BRIGHT_BLACK_BACKGROUND   (* DISPLAY; OMISSION never asked for *)
  end.

(** RANGE_STYLE: 'deepCopy_operator' is the key in the table, so 'deep_copy_operator' is absent;
    'comment_operator' and 'comment' are absent too. *)
Definition range_style (n : rname) : option text :=
  match n with
  | R_element_operator | R_escape_begin_operator | R_escape_end_operator | R_item_operator
  | R_entry_operator | R_section_operator | R_copy_operator | R_multiline_field_operator
  | R_direct_line_continuation_operator | R_spaced_line_continuation_operator => Some WHITE
  | R_key | R_template => Some (BOLD ++ BRIGHT_WHITE)
  | R_value => Some (DIM ++ WHITE)
  | _ => None
  end.

(** terminal_reporter.py:52-63 (the tags are all None when the constructor runs, so the highest
    line number is the number of lines) *)
Definition padding (c : ctx) : nat := Nat.max 4 (length (dec (c_line_count c))).
Definition terminal_header (c : ctx) : text :=
  match c_source c with
  | Some (x :: s) =>
      BLACK ++ BRIGHT_RED_BACKGROUND ++ U " " ++ indicator EMPHASIZE ++ U " " ++
      rjust (padding c) (U " ") ++ U " " ++ RESET ++ U " " ++ BOLD ++ (x :: s) ++ RESET ++ [nl]
  | _ => []
  end.

(** [ranges.sort(key=begin, reverse=True)]: stable, descending *)
Fixpoint insert_desc (x : rname * (nat * nat)) (l : ranges) : ranges :=
  match l with
  | [] => [x]
  | y :: l' => if Nat.ltb (fst (snd y)) (fst (snd x)) then x :: l else y :: insert_desc x l'
  end.
Definition sort_desc (l : ranges) : ranges := fold_left (fun acc x => insert_desc x acc) l [].

(** terminal_reporter.py:65-89 *)
Definition terminal_line (r : reporter) (line : nat) (t : tag) : res text :=
  let c := r_ctx r in
  match t with
  | OMISSION =>
      Ok (DIM ++ BRIGHT_BLACK_BACKGROUND ++ rjust (padding c + 2) (U "...") ++ U "  " ++ RESET)
  | _ =>
      do content <-
        match info_at r line with
        | None => Ok []
        | Some i =>
            match ri_type i with
            | None => Raise KeyError
            | Some ty =>
                do content <- line_content c i;
                if itype_eqb ty COMMENT || itype_eqb ty UNPARSED
                then Ok (BRIGHT_BLACK ++ content ++ RESET)
                else
                  let lb := fst (line_range (ri_ranges i)) in
                  foldM (fun content x =>
                    let '(name, (b, e)) := x in
                    match range_style name with
                    | None => Raise KeyError
                    | Some st =>
                        Ok (firstn (b - lb) content ++ st ++ slice (c_input c) b e ++ RESET ++
                            skipn (e - lb) content)
                    end)
                    (sort_desc (filter (fun x => negb (rname_eqb (fst x) R_line)) (ri_ranges i)))
                    content
            end
        end;
      Ok (gutter_style t ++ U " " ++ indicator t ++ U " " ++ rjust (padding c) (dec (line + 1)) ++
          U " " ++ RESET ++ U " " ++ content)
  end.

(** [[self._line(line, tag) for line, tag in enumerate(self._snippet) if tag is not None]] *)
Fixpoint print_lines (pl : nat -> tag -> res text) (line : nat) (s : snip) : res (list text) :=
  match s with
  | [] => Ok []
  | None :: s' => print_lines pl (S line) s'
  | Some t :: s' =>
      do x <- pl line t;
      do xs <- print_lines pl (S line) s';
      Ok (x :: xs)
  end.

(** text_reporter.py:37-40, html_reporter.py:38-45, terminal_reporter.py:91-94 *)
Definition print (r : reporter) : res text :=
  let c := r_ctx r in
  match c_reporter c with
  | TextReporter =>
      do ls <- print_lines (text_line r) 0 (r_snip r); Ok (text_header c ++ join [nl] ls)
  | HtmlReporter =>
      do ls <- print_lines (html_line r) 0 (r_snip r);
      let columns_header := html_markup (lc_gutter_header (c_locale c)) (lc_content_header (c_locale c)) [] in
      let body := U "<pre class=""eno-report"">" ++ columns_header ++ join [nl] ls ++ U "</pre>" in
      match c_source c with
      | Some (x :: s) => Ok (U "<div><div>" ++ (x :: s) ++ U "</div>" ++ body ++ U "</div>")
      | _ => Ok body
      end
  | TerminalReporter =>
      do ls <- print_lines (terminal_line r) 0 (r_snip r); Ok (terminal_header c ++ join [nl] ls)
  end.

(** reporter.py:195-217 *)
Definition snippet (r : reporter) : res text :=
  do s <- complete (c_line_count (r_ctx r)) (r_snip r);
  print (with_snip r s).
