(** Errors: model of [errors/selections.py], [errors/parsing.py], [errors/validation.py] (whole
    files).  Each function returns the exception *object* it builds ([eno_error]); building it
    may itself raise ([Raise]). *)
From Verif Require Import Base Regex Grammar Types Messages Analyzer Reporter.

(** What selections read of an instruction: 'line' (absent on the document) and 'ranges'. *)
Record ins := MkIns { i_line : option nat; i_ranges : ranges }.
Definition leaf_ins (l : leaf) : ins := MkIns (Some (l_line l)) (l_ranges l).
Definition node_ins (n : node) : ins :=
  MkIns (if itype_eqb (n_type n) DOCUMENT then None else Some (n_line n)) (n_ranges n).

Definition key_or {A} (o : option A) : res A := match o with Some a => Ok a | None => Raise KeyError end.

(** selections.py:3-6 *)
Definition DOCUMENT_BEGIN : selection_t := MkSel (MkCursor 0 0 0) (MkCursor 0 0 0).

Inductive pos := BEGIN | END.
Definition at_pos (p : pos) (s : nat * nat) : nat := match p with BEGIN => fst s | END => snd s end.

(** [xs[-1]] *)
Definition last_of {A} (l : list A) : res A :=
  match rev l with x :: _ => Ok x | [] => Raise IndexError end.

(** selections.py:8-22; [fuel] bounds the descent into nested sections *)
Fixpoint last_in (fuel : nat) (h : heap) (e : nat) : res ins :=
  match fuel with
  | O => Raise Fuel
  | S f =>
      let n := hget h e in
      let self := Ok (node_ins n) in
      match n_type n with
      | FIELD | LIST_ITEM | FIELDSET_ENTRY =>
          match n_conts n with
          | Some cs => do l <- last_of cs; Ok (leaf_ins l)
          | None => self
          end
      | LIST =>
          match n_items n with Some l => do x <- last_of l; last_in f h x | None => self end
      | FIELDSET =>
          match n_entries n with Some l => do x <- last_of l; last_in f h x | None => self end
      | MULTILINE_FIELD_BEGIN => do l <- key_or (n_end n); Ok (leaf_ins l)
      | SECTION =>
          match n_elements n with
          | [] => self
          | l => do x <- last_of l; last_in f h x
          end
      | _ => self
      end
  end.

(** selections.py:24-31 *)
Definition cursor (i : ins) (r : rname) (p : pos) : res cursor_t :=
  do s <- key_or (rget (i_ranges i) r);
  do lr <- key_or (rget (i_ranges i) R_line);
  do line <- key_or (i_line i);
  Ok (MkCursor (at_pos p s - fst lr) (at_pos p s) line).

(** selections.py:33-41 *)
Definition selection (i : ins) (r : rname) (p : pos) (i' : ins) (r' : rname) (p' : pos) : res selection_t :=
  do a <- cursor i r p; do b <- cursor i' r' p'; Ok (MkSel a b).
(** [selection(i, r, BEGIN, END)] *)
Definition select_range (i : ins) (r : rname) : res selection_t := selection i r BEGIN i r END.
(** [selection(i, r, p)] *)
Definition select_point (i : ins) (r : rname) (p : pos) : res selection_t := selection i r p i r p.

Section WithContext.
  Variable c : ctx.
  Let h := c_heap c.
  Let node i := hget h i.
  Let nins i := node_ins (node i).
  Let fuel := S (length h).
  Let M := c_locale c.

  (** selections.py:43-54 *)
  Definition select_comments (e : nat) : res selection_t :=
    do comments <- key_or (n_comments (node e));
    match comments with
    | [x] =>
        match l_text x with
        | Some _ => select_range (leaf_ins x) R_comment
        | None => select_range (leaf_ins x) R_line
        end
    | x :: _ => do y <- last_of comments; selection (leaf_ins x) R_line BEGIN (leaf_ins y) R_line END
    | [] => select_point (nins e) R_line BEGIN
    end.

  (** selections.py:56-66 *)
  Definition select_element (e : nat) : res selection_t :=
    do l <- last_in fuel h e; selection (nins e) R_line BEGIN l R_line END.
  Definition select_key (e : nat) : res selection_t := select_range (nins e) R_key.
  Definition select_line (i : ins) : res selection_t := select_range i R_line.
  Definition select_template (e : nat) : res selection_t := select_range (nins e) R_template.

  (** [context.reporter(context).<report>.snippet()] *)
  Definition report (f : reporter -> res reporter) : res text :=
    do r <- new_reporter c; do r <- f r; snippet r.

  (** [Error(text, snippet, selection)] with arguments evaluated left to right *)
  Definition build (t : res text) (s : res text) (sel : res selection_t) : res eno_error :=
    do t <- t; do s <- s; do sel <- sel; Ok (MkErr t s sel).

  Definition human (l : nat) : nat := l + 1.
  Definition human_line (e : nat) : res nat := do l <- node_line (node e); Ok (human l).
  Definition tpl (e : nat) : res text := key_or (n_template (node e)).
  Definition key (e : nat) : res text := key_or (n_key (node e)).

  Definition index_of (x : nat) (l : list nat) : nat :=
    (fix go l := match l with [] => 0 | y :: l' => if Nat.eqb x y then 0 else S (go l') end) l.

  (** parsing.py:9-31 *)
  Definition cyclic_dependency (i : nat) (chain : list nat) : res eno_error :=
    let feedback := skipn (index_of i chain) chain in
    do lst <- last_of feedback;
    do fst <- match feedback with x :: _ => Ok x | [] => Raise IndexError end;
    do copy <- (if opt_is (n_template (node lst)) then Ok lst
                else if opt_is (n_template (node fst)) then Ok fst
                else Raise UnboundLocalError);
    do r <- new_reporter c;
    do r <- report_line r copy;
    do r <- foldM (fun r e => if Nat.eqb e copy then Ok r else indicate_line r e) feedback r;
    build (do l <- human_line copy; do t <- tpl copy; Ok (lc_cyclic_dependency M l t))
          (snippet r) (select_template copy).

  (** parsing.py:101-110 *)
  Definition unterminated_escaped_key (i : leaf) (column : nat) : res eno_error :=
    build (Ok (lc_unterminated_escaped_key M (human (l_line i))))
          (report (fun r => report_leaf r i))
          (do lr <- key_or (rget (l_ranges i) R_line);
           do to <- cursor (leaf_ins i) R_line END;
           Ok (MkSel (MkCursor column (fst lr + column) (l_line i)) to)).

  (** parsing.py:34-46 *)
  Definition invalid_line (i : leaf) : res eno_error :=
    do lr <- key_or (rget (l_ranges i) R_line);
    match match_at UNTERMINATED_ESCAPED_KEY (slice (c_input c) (fst lr) (snd lr)) 0 with
    | Some mo => unterminated_escaped_key i (match mspan mo 1 with Some s => snd s | None => 0 end)
    | None =>
        build (Ok (lc_invalid_line M (human (l_line i))))
              (report (fun r => report_leaf r i)) (select_line (leaf_ins i))
    end.

  (** parsing.py:48-70: reports on one line *)
  Definition leaf_error (msg : nat -> text) (i : leaf) : res eno_error :=
    build (Ok (msg (human (l_line i)))) (report (fun r => report_leaf r i)) (select_line (leaf_ins i)).
  Definition node_error (msg : nat -> res text) (e : nat) : res eno_error :=
    build (do l <- human_line e; msg l) (report (fun r => report_line r e)) (select_line (nins e)).

  (** parsing.py:80-91 *)
  Definition section_hierarchy_layer_skip (i : leaf) (super : nat) : res eno_error :=
    do r <- new_reporter c;
    do r <- report_leaf r i;
    do r <- (if itype_eqb (n_type (node super)) DOCUMENT then Ok r else indicate_line r super);
    build (Ok (lc_section_hierarchy_layer_skip M (human (l_line i)))) (snippet r)
          (select_line (leaf_ins i)).

  (** parsing.py:112-118 *)
  Definition two_or_more_templates_found (copy first second : nat) : res eno_error :=
    build (do t <- tpl copy; Ok (lc_two_or_more_templates_found M t))
          (report (fun r => do r <- report_line r copy; do r <- question_line r first;
                            question_line r second))
          (select_line (nins copy)).

  (** parsing.py:120-133 *)
  Definition unterminated_multiline_field (e : nat) : res eno_error :=
    do r <- new_reporter c;
    do r <- report_element r e;
    do r <- foldM (fun r l => do el <- node_line (node e);
                     if Nat.ltb el (l_line l) then indicate_leaf r l else Ok r) (c_meta c) r;
    build (do k <- key e; do l <- human_line e; Ok (lc_unterminated_multiline_field M k l))
          (snippet r) (select_line (nins e)).

  (** The [Parsing.*] call belonging to each analyzer / resolver error. *)
  Definition parse_error (e : perr) : res eno_error :=
    match e with
    | PInvalidLine i => invalid_line i
    | PMissingElementForContinuation i => leaf_error (lc_missing_element_for_continuation M) i
    | PMissingListForItem i => leaf_error (lc_missing_list_for_list_item M) i
    | PMissingFieldsetForEntry i => leaf_error (lc_missing_fieldset_for_fieldset_entry M) i
    | PLayerSkip i s => section_hierarchy_layer_skip i s
    | PUnterminatedMultiline f => unterminated_multiline_field f
    | PMissingListForItemNode i => node_error (fun l => Ok (lc_missing_list_for_list_item M l)) i
    | PMissingFieldsetForEntryNode i =>
        node_error (fun l => Ok (lc_missing_fieldset_for_fieldset_entry M l)) i
    | PCyclic i chain => cyclic_dependency i chain
    | PTwoTemplates copy a b => two_or_more_templates_found copy a b
    | PNonSectionNotFound copy =>
        node_error (fun l => do t <- tpl copy; Ok (lc_non_section_element_not_found M l t)) copy
    | PSectionNotFound copy =>
        node_error (fun l => do t <- tpl copy; Ok (lc_section_not_found M l t)) copy
    end.

  (** validation.py:8-13 *)
  Definition v_comment_error (message : text) (e : nat) : res eno_error :=
    build (Ok (lc_comment_error M message)) (report (fun r => report_comments r e)) (select_comments e).

  (** validation.py:16-21 *)
  Definition v_element_error (message : text) (e : nat) : res eno_error :=
    build (Ok message) (report (fun r => report_element r e)) (select_element e).

  (** validation.py:24-29 *)
  Definition v_key_error (message : text) (e : nat) : res eno_error :=
    build (Ok (lc_key_error M message)) (report (fun r => report_line r e)) (select_key e).

  (** validation.py:32-37 *)
  Definition v_missing_comment (e : nat) : res eno_error :=
    build (Ok (lc_missing_comment M)) (report (fun r => report_line r e))
          (select_point (nins e) R_line BEGIN).

  Definition keyed_message (q : qmsg) (k : option text) : text :=
    match k with None => plain M q | Some k => with_key M q k end.

  (** validation.py:40-47 *)
  Definition v_missing_element (k : option text) (parent : nat) (q : qmsg) : res eno_error :=
    build (Ok (keyed_message q k)) (report (fun r => report_missing_element r parent))
          (if itype_eqb (n_type (node parent)) DOCUMENT then Ok DOCUMENT_BEGIN
           else select_point (nins parent) R_line END).

  (** validation.py:50-78 *)
  Definition v_missing_value (e : nat) : res eno_error :=
    let n := node e in
    do mf <- match n_type n with
             | FIELD | EMPTY_ELEMENT | MULTILINE_FIELD_BEGIN =>
                 do k <- key e;
                 do f <- (if opt_is (rget (n_ranges n) R_template) then cursor (nins e) R_template END
                          else if opt_is (rget (n_ranges n) R_element_operator)
                          then cursor (nins e) R_element_operator END
                          else cursor (nins e) R_line END);
                 Ok (Some (lc_missing_field_value M k, f))
             | FIELDSET_ENTRY =>
                 do k <- key e;
                 do f <- cursor (nins e) R_entry_operator END;
                 Ok (Some (lc_missing_fieldset_entry_value M k, f))
             | LIST_ITEM =>
                 do p <- key_or (n_parent n);
                 do k <- key p;
                 do f <- cursor (nins e) R_item_operator END;
                 Ok (Some (lc_missing_list_item_value M k, f))
             | _ => Ok None
             end;
    do s <- report (fun r => report_element r e);
    do to <- match n_type n, n_conts n with
             | FIELD, Some cs => do l <- last_of cs; cursor (leaf_ins l) R_line END
             | _, _ => cursor (nins e) R_line END
             end;
    match mf with
    | None => Raise UnboundLocalError
    | Some (t, f) => Ok (MkErr t s (MkSel f to))
    end.

  (** validation.py:81-86: [message or default]: an empty message is replaced too *)
  Definition v_unexpected_element (message : option text) (e : nat) : res eno_error :=
    build (Ok (match message with Some (x :: t) => x :: t | _ => lc_unexpected_element M end))
          (report (fun r => report_element r e)) (select_element e).

  (** validation.py:89-97 *)
  Definition v_unexpected_multiple_elements (k : option text) (es : list nat) (q : qmsg) : res eno_error :=
    build (Ok (keyed_message q k)) (report (fun r => report_elements r es))
          (match es with e :: _ => select_element e | [] => Raise IndexError end).

  (** validation.py:99-106; [q] as text because 'expected_fieldset_entry' / 'expected_list_item'
      have no keyed variant *)
  Definition v_unexpected_element_type (k : option text) (e : nat) (q : qmsg) : res eno_error :=
    build (Ok (keyed_message q k)) (report (fun r => report_element r e)) (select_element e).

  (** validation.py:108-143 *)
  Definition v_value_error (message : text) (e : nat) : res eno_error :=
    let n := node e in
    let rs := n_ranges n in
    let fin s sel := do s <- s; do sel <- sel; Ok (MkErr (lc_value_error M message) s sel) in
    if opt_is (n_mirror n) then
      fin (report (fun r => report_line r e)) (select_key e)
    else if itype_eqb (n_type n) MULTILINE_FIELD_BEGIN then
      match n_lines n with
      | Some ls =>
          fin (report (fun r => report_multiline_value r e))
              (do a <- match ls with x :: _ => Ok x | [] => Raise IndexError end;
               do b <- last_of ls;
               selection (leaf_ins a) R_line BEGIN (leaf_ins b) R_line END)
      | None => fin (report (fun r => report_element r e)) (select_point (nins e) R_line END)
      end
    else
      fin (report (fun r => report_element r e))
          (do f <- (if opt_is (rget rs R_value) then cursor (nins e) R_value BEGIN
                    else if opt_is (rget rs R_element_operator) then cursor (nins e) R_element_operator END
                    else if opt_is (rget rs R_entry_operator) then cursor (nins e) R_entry_operator END
                    else if itype_eqb (n_type n) LIST_ITEM then cursor (nins e) R_item_operator END
                    else cursor (nins e) R_line END);
           do to <- match n_conts n with
                    | Some cs => do l <- last_of cs; cursor (leaf_ins l) R_line END
                    | None => if opt_is (rget rs R_value) then cursor (nins e) R_value END
                              else cursor (nins e) R_line END
                    end;
           Ok (MkSel f to)).
End WithContext.
