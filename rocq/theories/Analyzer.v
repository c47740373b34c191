(** Analyzer: model of [analyzer.py] (whole file). *)
From Verif Require Import Base Regex Grammar Types.

(** The analyzer's own fields plus the context fields it writes, plus the local variables of
    [analyze] (analyzer.py:8-19, 61-64).  [a_cs]/[a_cn] are [context._copy_sections] and
    [context._copy_non_section_elements]: template name -> targets, insertion ordered; the
    attribute exists iff the list is non-empty (it is created together with its first entry,
    analyzer.py:306-312, 447-453). *)
Record ast := MkA {
  a_heap : heap;
  a_meta : list leaf;
  a_index : nat;
  a_line : nat;
  a_depth : nat;
  a_comments : option (list leaf);      (* comments *)
  a_lce : option nat;                   (* last_continuable_element *)
  a_lnse : option nat;                  (* last_non_section_element *)
  a_lsec : nat;                         (* last_section *)
  a_cs : list (text * list nat);
  a_cn : list (text * list nat)
}.

Definition init_ast : ast := MkA [document_node] [] 0 0 0 None None None 0 [] [].

(** The parse errors the analyzer can raise, with the arguments given to [Parsing.*]. *)
Inductive perr :=
| PInvalidLine (i : leaf)
| PMissingElementForContinuation (i : leaf)
| PMissingListForItem (i : leaf)
| PMissingFieldsetForEntry (i : leaf)
| PLayerSkip (i : leaf) (super : nat)
| PUnterminatedMultiline (field : nat)
(* raised by the resolver *)
| PMissingListForItemNode (i : nat)
| PMissingFieldsetForEntryNode (i : nat)
| PCyclic (i : nat) (chain : list nat)
| PTwoTemplates (copy first second : nat)
| PNonSectionNotFound (copy : nat)
| PSectionNotFound (copy : nat).

(** Outcome of a step.  [SErr e st lc]: raise error [e] built in context state [st] with
    [context.line_count = lc].  [SCrash]: KeyError 'parent'.  [SFuel]: model fuel exhausted. *)
Inductive sres :=
| SOk (st : ast)
| SErr (e : perr) (st : ast) (line_count : nat)
| SCrash
| SFuel.

Section Analyze.
  Variable inp : text.   (* context.input *)

  Definition span0 (mo : mobj) (n : nat) : nat * nat :=
    match mspan mo n with Some s => s | None => (0, 0) end.

  (** analyzer.py:21-54 [_tokenize_error_context], from [index]/[line]: the instructions appended
      to [context.meta] and [context.line_count].  The returned instruction is the first one. *)
  Fixpoint tokenize_error (fuel index line : nat) (first : bool) : option (list leaf * nat) :=
    match fuel with
    | O => None
    | S f =>
        let ty := if first then None else Some UNPARSED in
        match find_nl inp index with
        | None =>
            Some ([MkLeaf ty line [(R_line, (index, length inp))] None false], line + 1)
        | Some e =>
            match tokenize_error f (e + 1) (line + 1) false with
            | None => None
            | Some (ls, lc) =>
                Some (MkLeaf ty line [(R_line, (index, e))] None false :: ls, lc)
            end
        end
    end.

  (** Call [_tokenize_error_context] and raise [mk first_instruction]. *)
  Definition fail_at (st : ast) (index line : nat) (mk : leaf -> perr) : sres :=
    match tokenize_error (S (length inp)) index line true with
    | Some (i :: ls, lc) =>
        SErr (mk i)
             (MkA (a_heap st) (a_meta st ++ i :: ls) (a_index st) (a_line st) (a_depth st)
                  (a_comments st) (a_lce st) (a_lnse st) (a_lsec st) (a_cs st) (a_cn st)) lc
    | _ => SFuel
    end.

  (** [self._context.meta.extend(comments)] if there are comments *)
  Definition flush (meta : list leaf) (comments : option (list leaf)) : list leaf :=
    match comments with Some cs => meta ++ cs | None => meta end.

  (** 'key' and its ranges for late determined lines.
      analyzer.py:94-104 (fields), 158-169 (entries), 432-440 (copies). *)
  Definition late_key (mo : mobj) : option text :=
    match mgroup inp mo KEY_UNESCAPED_INDEX with
    | Some k => Some k
    | None => mgroup inp mo KEY_ESCAPED_INDEX
    end.
  Definition late_escaped (mo : mobj) : bool :=
    match mgroup inp mo KEY_UNESCAPED_INDEX with Some _ => false | None => true end.

  (** analyzer.py:106-113 and the like: 'value' range, if the group took part in the match *)
  Definition value_range (mo : mobj) (n : nat) : ranges :=
    match mspan mo n with Some s => [(R_value, s)] | None => [] end.

  (** analyzer.py:94-113 *)
  Definition field_ranges (index : nat) (mo : mobj) : ranges :=
    (R_line, (index, m_end mo)) ::
    (if late_escaped mo then
       [(R_element_operator, span0 mo ELEMENT_OPERATOR_INDEX);
        (R_escape_begin_operator, span0 mo KEY_ESCAPE_BEGIN_OPERATOR_INDEX);
        (R_escape_end_operator, span0 mo KEY_ESCAPE_END_OPERATOR_INDEX);
        (R_key, span0 mo KEY_ESCAPED_INDEX)]
     else
       [(R_element_operator, span0 mo ELEMENT_OPERATOR_INDEX);
        (R_key, span0 mo KEY_UNESCAPED_INDEX)])
    ++ value_range mo FIELD_VALUE_INDEX.

  (** analyzer.py:160-175 *)
  Definition entry_ranges (index : nat) (mo : mobj) : ranges :=
    (R_line, (index, m_end mo)) ::
    (if late_escaped mo then
       [(R_escape_begin_operator, span0 mo KEY_ESCAPE_BEGIN_OPERATOR_INDEX);
        (R_escape_end_operator, span0 mo KEY_ESCAPE_END_OPERATOR_INDEX);
        (R_entry_operator, span0 mo FIELDSET_ENTRY_OPERATOR_INDEX);
        (R_key, span0 mo KEY_ESCAPED_INDEX)]
     else
       [(R_entry_operator, span0 mo FIELDSET_ENTRY_OPERATOR_INDEX);
        (R_key, span0 mo KEY_UNESCAPED_INDEX)])
    ++ value_range mo FIELDSET_ENTRY_VALUE_INDEX.

  (** analyzer.py:427-440 *)
  Definition copy_ranges (index : nat) (mo : mobj) : ranges :=
    [(R_line, (index, m_end mo));
     (R_copy_operator, span0 mo COPY_OPERATOR_INDEX);
     (R_template, span0 mo TEMPLATE_INDEX)] ++
    (if late_escaped mo then
       [(R_escape_begin_operator, span0 mo KEY_ESCAPE_BEGIN_OPERATOR_INDEX);
        (R_escape_end_operator, span0 mo KEY_ESCAPE_END_OPERATOR_INDEX);
        (R_key, span0 mo KEY_ESCAPED_INDEX)]
     else [(R_key, span0 mo KEY_UNESCAPED_INDEX)]).

  (** analyzer.py:254, 277-304 *)
  Definition deep_operator (mo : mobj) : bool :=
    let s := span0 mo SECTION_COPY_OPERATOR_INDEX in Nat.eqb (snd s - fst s) 2.
  Definition section_key (mo : mobj) : option text :=
    match mgroup inp mo SECTION_KEY_UNESCAPED_INDEX with
    | Some k => Some k
    | None => mgroup inp mo SECTION_KEY_ESCAPED_INDEX
    end.
  Definition section_ranges (index : nat) (mo : mobj) : ranges :=
    [(R_line, (index, m_end mo));
     (R_section_operator, span0 mo SECTION_OPERATOR_INDEX)] ++
    (match mgroup inp mo SECTION_KEY_UNESCAPED_INDEX with
     | Some _ => [(R_key, span0 mo SECTION_KEY_UNESCAPED_INDEX)]
     | None =>
         [(R_escape_begin_operator, span0 mo SECTION_KEY_ESCAPE_BEGIN_OPERATOR_INDEX);
          (R_escape_end_operator, span0 mo SECTION_KEY_ESCAPE_END_OPERATOR_INDEX);
          (R_key, span0 mo SECTION_KEY_ESCAPED_INDEX)]
     end) ++
    (match mgroup inp mo SECTION_TEMPLATE_INDEX with
     | Some _ =>
         [(R_template, span0 mo SECTION_TEMPLATE_INDEX);
          (if deep_operator mo then R_deep_copy_operator else R_copy_operator,
           span0 mo SECTION_COPY_OPERATOR_INDEX)]
     | None => []
     end).

  (** analyzer.py:265-267: [while new_depth < depth: last_section = last_section['parent']],
      [n] times; [None] is the KeyError 'parent'. *)
  Fixpoint climb (h : heap) (n : nat) (sec : nat) : option nat :=
    match n with
    | O => Some sec
    | S n' => match n_parent (hget h sec) with Some p => climb h n' p | None => None end
    end.

  (** analyzer.py:293-296: mark every enclosing section for deep resolution.
      [None]: fuel exhausted or KeyError. *)
  Fixpoint mark_deep (fuel : nat) (h : heap) (p : nat) : option heap :=
    match fuel with
    | O => None
    | S f =>
        if itype_eqb (n_type (hget h p)) DOCUMENT then Some h
        else
          match n_parent (hget h p) with
          | Some q => mark_deep f (hupd h p (set_deep_resolve true)) q
          | None => None
          end
    end.

  (** analyzer.py:355-383: the value lines of a multiline field, from [index]/[line] up to
      [stop]; returns them and the line number after them. *)
  Fixpoint ml_lines (fuel index line stop : nat) : option (list leaf * nat) :=
    match fuel with
    | O => None
    | S f =>
        match find_nl_to inp index stop with
        | None =>
            Some ([MkLeaf (Some MULTILINE_FIELD_VALUE) line
                          [(R_line, (index, stop)); (R_value, (index, stop))] None false],
                  line + 1)
        | Some e =>
            match ml_lines f (e + 1) (line + 1) stop with
            | None => None
            | Some (ls, line') =>
                Some (MkLeaf (Some MULTILINE_FIELD_VALUE) line
                             [(R_line, (index, e)); (R_value, (index, e))] None false :: ls,
                      line')
            end
        end
    end.

  Definition add_element (h : heap) (sec : nat) (id : nat) : heap :=
    hupd h sec (fun n => set_elements (n_elements n ++ [id]) n).

  Definition add_target (t : text) (id : nat) (l : list (text * list nat)) :=
    assoc_upd t (fun ts => ts ++ [id]) [id] l.

  (** analyzer.py:198-218 and 226-245: attach a continuation to element [e]. *)
  Definition add_continuation (h : heap) (e : nat) (c : leaf) : heap :=
    hupd h e (fun n =>
      match n_conts n with
      | Some cs => set_conts (Some (cs ++ [c])) n
      | None =>
          set_conts (Some [c])
            (if itype_eqb (n_type n) EMPTY_ELEMENT then set_type FIELD n else n)
      end).

  (** One iteration of the loop, analyzer.py:66-459. *)
  Definition step (st : ast) : sres :=
    let h := a_heap st in
    let meta := a_meta st in
    let index := a_index st in
    let line := a_line st in
    let comments := a_comments st in
    let id := length h in
    match search REGEX inp index with
    | None => fail_at st index line PInvalidLine                                   (* 69-71 *)
    | Some mo =>
    if negb (Nat.eqb (m_start mo) index) then fail_at st index line PInvalidLine   (* 69-71 *)
    else
    let next := m_end mo + 1 in
    let has n := opt_is (mspan mo n) in
    if has EMPTY_LINE_INDEX then                                                   (* 82-86 *)
      SOk (MkA h (flush meta comments) next (line + 1) (a_depth st) None
               (a_lce st) (a_lnse st) (a_lsec st) (a_cs st) (a_cn st))
    else if has ELEMENT_OPERATOR_INDEX then                                        (* 88-118 *)
      let v := mgroup inp mo FIELD_VALUE_INDEX in
      let n := set_comments comments (set_key (late_key mo) (set_value v
                 (set_parent (Some (a_lsec st))
                   (new_node (if opt_is v then FIELD else EMPTY_ELEMENT) line
                             (field_ranges index mo))))) in
      SOk (MkA (add_element (h ++ [n]) (a_lsec st) id) meta next (line + 1) (a_depth st) None
               (Some id) (Some id) (a_lsec st) (a_cs st) (a_cn st))
    else if has LIST_ITEM_OPERATOR_INDEX then                                      (* 120-148 *)
      let n lst := set_comments comments (set_value (mgroup inp mo LIST_ITEM_VALUE_INDEX)
                 (set_parent (Some lst)
                   (new_node LIST_ITEM line
                     ((R_line, (index, m_end mo)) ::
                      (R_item_operator, span0 mo LIST_ITEM_OPERATOR_INDEX) ::
                      value_range mo LIST_ITEM_VALUE_INDEX)))) in
      match a_lnse st with
      | None => fail_at st index line PMissingListForItem
      | Some lst =>
          match n_type (hget h lst) with
          | LIST =>
              SOk (MkA (hupd (h ++ [n lst]) lst (fun x =>
                          set_items (match n_items x with Some l => Some (l ++ [id]) | None => Some [id] end) x))
                       meta next (line + 1) (a_depth st) None
                       (Some id) (Some lst) (a_lsec st) (a_cs st) (a_cn st))
          | EMPTY_ELEMENT =>
              SOk (MkA (hupd (h ++ [n lst]) lst (fun x => set_items (Some [id]) (set_type LIST x)))
                       meta next (line + 1) (a_depth st) None
                       (Some id) (Some lst) (a_lsec st) (a_cs st) (a_cn st))
          | _ => fail_at st index line PMissingListForItem
          end
      end
    else if has FIELDSET_ENTRY_OPERATOR_INDEX then                                 (* 150-190 *)
      let n fs := set_comments comments (set_key (late_key mo)
                 (set_value (mgroup inp mo FIELDSET_ENTRY_VALUE_INDEX)
                 (set_parent (Some fs)
                   (new_node FIELDSET_ENTRY line (entry_ranges index mo))))) in
      match a_lnse st with
      | None => fail_at st index line PMissingFieldsetForEntry
      | Some fs =>
          match n_type (hget h fs) with
          | FIELDSET =>
              SOk (MkA (hupd (h ++ [n fs]) fs (fun x =>
                          set_entries (match n_entries x with Some l => Some (l ++ [id]) | None => Some [id] end) x))
                       meta next (line + 1) (a_depth st) None
                       (Some id) (Some fs) (a_lsec st) (a_cs st) (a_cn st))
          | EMPTY_ELEMENT =>
              SOk (MkA (hupd (h ++ [n fs]) fs (fun x => set_entries (Some [id]) (set_type FIELDSET x)))
                       meta next (line + 1) (a_depth st) None
                       (Some id) (Some fs) (a_lsec st) (a_cs st) (a_cn st))
          | _ => fail_at st index line PMissingFieldsetForEntry
          end
      end
    else if has SPACED_LINE_CONTINUATION_OPERATOR_INDEX then                       (* 192-218 *)
      match a_lce st with
      | None => fail_at st index line PMissingElementForContinuation
      | Some e =>
          let c := MkLeaf (Some CONTINUATION) line
                     ((R_line, (index, m_end mo)) ::
                      (R_spaced_line_continuation_operator,
                       span0 mo SPACED_LINE_CONTINUATION_OPERATOR_INDEX) ::
                      value_range mo SPACED_LINE_CONTINUATION_VALUE_INDEX)
                     (mgroup inp mo SPACED_LINE_CONTINUATION_VALUE_INDEX) true in
          SOk (MkA (add_continuation h e c) (flush meta comments) next (line + 1) (a_depth st)
                   None (Some e) (a_lnse st) (a_lsec st) (a_cs st) (a_cn st))
      end
    else if has DIRECT_LINE_CONTINUATION_OPERATOR_INDEX then                       (* 220-245 *)
      match a_lce st with
      | None => fail_at st index line PMissingElementForContinuation
      | Some e =>
          let c := MkLeaf (Some CONTINUATION) line
                     ((R_line, (index, m_end mo)) ::
                      (R_direct_line_continuation_operator,
                       span0 mo DIRECT_LINE_CONTINUATION_OPERATOR_INDEX) ::
                      value_range mo DIRECT_LINE_CONTINUATION_VALUE_INDEX)
                     (mgroup inp mo DIRECT_LINE_CONTINUATION_VALUE_INDEX) false in
          SOk (MkA (add_continuation h e c) (flush meta comments) next (line + 1) (a_depth st)
                   None (Some e) (a_lnse st) (a_lsec st) (a_cs st) (a_cn st))
      end
    else if has SECTION_OPERATOR_INDEX then                                        (* 247-317 *)
      let sop := span0 mo SECTION_OPERATOR_INDEX in
      let new_depth := snd sop - fst sop in
      let depth := a_depth st in
      let parent : option (option nat) :=          (* None: layer skip; Some None: KeyError *)
        if Nat.eqb new_depth (depth + 1) then Some (Some (a_lsec st))              (* 259-261 *)
        else if Nat.eqb new_depth depth then Some (n_parent (hget h (a_lsec st)))  (* 262-263 *)
        else if Nat.ltb new_depth depth then                                       (* 264-269 *)
          match climb h (depth - new_depth) (a_lsec st) with
          | Some s => Some (n_parent (hget h s))
          | None => Some None
          end
        else None in                                                               (* 270-272 *)
      match parent with
      | None => fail_at st index line (fun i => PLayerSkip i (a_lsec st))
      | Some None => SCrash
      | Some (Some p) =>
          let template := mgroup inp mo SECTION_TEMPLATE_INDEX in
          let n := set_comments comments (set_key (section_key mo) (set_parent (Some p)
                     (set_template template
                     (set_deep_copy (opt_is template && deep_operator mo)
                     (set_copy (opt_is template)
                       (new_node SECTION line (section_ranges index mo))))))) in
          let h1 := add_element (h ++ [n]) p id in
          match (match template with                                               (* 289-314 *)
                 | None => Some (h1, a_cs st)
                 | Some t =>
                     match mark_deep (S (length h)) h1 p with
                     | Some h2 => Some (h2, add_target t id (a_cs st))
                     | None => None
                     end
                 end) with
          | None => SFuel
          | Some (h2, cs2) =>
              SOk (MkA h2 meta next (line + 1) new_depth None None None id cs2 (a_cn st))
          end
      end
    else if has MULTILINE_FIELD_OPERATOR_INDEX then                                (* 319-401 *)
      let operator := match mgroup inp mo MULTILINE_FIELD_OPERATOR_INDEX with Some o => o | None => [] end in
      let key := match mgroup inp mo MULTILINE_FIELD_KEY_INDEX with Some k => k | None => [] end in
      let n := set_comments comments (set_key (Some key) (set_parent (Some (a_lsec st))
                 (new_node MULTILINE_FIELD_BEGIN line
                   [(R_line, (index, m_end mo));
                    (R_multiline_field_operator, span0 mo MULTILINE_FIELD_OPERATOR_INDEX);
                    (R_key, span0 mo MULTILINE_FIELD_KEY_INDEX)]))) in
      let h1 := add_element (h ++ [n]) (a_lsec st) id in
      let index2 := m_end mo + 1 in
      let line2 := line + 1 in
      match search (TERMINATOR operator key) inp (m_end mo) with
      | None =>                                                                    (* 346-348 *)
          fail_at (MkA h1 meta index2 line2 (a_depth st) None None (Some id) (a_lsec st)
                       (a_cs st) (a_cn st))
                  index2 line2 (fun _ => PUnterminatedMultiline id)
      | Some tm =>
          let stop := m_start tm in
          match (if Nat.eqb stop (index2 - 1) then Some (None, line2, index2)
                 else
                   match ml_lines (S (length inp)) index2 line2 stop with
                   | Some (ls, line3) => Some (Some ls, line3, stop + 1)
                   | None => None
                   end) with
          | None => SFuel
          | Some (lines, line3, index3) =>
              let e := MkLeaf (Some MULTILINE_FIELD_END) line3
                         [(R_key, span0 tm 2); (R_line, (index3, m_end tm));
                          (R_multiline_field_operator, span0 tm 1)] None false in
              SOk (MkA (hupd h1 id (fun x => set_end (Some e) (set_lines lines x)))
                       meta (m_end tm + 1) (line3 + 1) (a_depth st) None None None
                       (a_lsec st) (a_cs st) (a_cn st))
          end
      end
    else if has COMMENT_OPERATOR_INDEX then                                        (* 403-417 *)
      let c := MkLeaf (Some COMMENT) line
                 ((R_line, (index, m_end mo)) ::
                  (R_comment_operator, span0 mo COMMENT_OPERATOR_INDEX) ::
                  match mspan mo COMMENT_VALUE_INDEX with
                  | Some s => [(R_comment, s)] | None => [] end)
                 (mgroup inp mo COMMENT_VALUE_INDEX) false in
      SOk (MkA h meta next (line + 1) (a_depth st)
               (match comments with None => Some [c] | Some cs => Some (cs ++ [c]) end)
               (a_lce st) (a_lnse st) (a_lsec st) (a_cs st) (a_cn st))
    else if has COPY_OPERATOR_INDEX then                                           (* 419-455 *)
      let t := match mgroup inp mo TEMPLATE_INDEX with Some t => t | None => [] end in
      let n := set_comments comments (set_key (late_key mo) (set_parent (Some (a_lsec st))
                 (set_template (Some t) (set_copy true
                   (new_node EMPTY_ELEMENT line (copy_ranges index mo)))))) in
      SOk (MkA (add_element (h ++ [n]) (a_lsec st) id) meta next (line + 1) (a_depth st) None
               None (Some id) (a_lsec st) (a_cs st) (add_target t id (a_cn st)))
    else                                                                           (* no branch: 457-459 *)
      SOk (MkA h meta next (line + 1) (a_depth st) comments
               (a_lce st) (a_lnse st) (a_lsec st) (a_cs st) (a_cn st))
    end.

  (** analyzer.py:66 [while self._index < len(input)] *)
  Fixpoint loop (fuel : nat) (st : ast) : sres :=
    if Nat.ltb (a_index st) (length inp) then
      match fuel with
      | O => SFuel
      | S f => match step st with SOk st' => loop f st' | r => r end
      end
    else SOk st.

  (** analyzer.py:56-469 [analyze]; on success the state and [context.line_count]. *)
  Inductive ares :=
  | AOk (st : ast) (line_count : nat)
  | AErr (e : perr) (st : ast) (line_count : nat)
  | ACrash
  | AFuel.

  Definition analyze : ares :=
    match inp with
    | [] => AOk init_ast 1                                                         (* 57-59 *)
    | _ =>
        match loop (length inp) init_ast with
        | SOk st =>
            let lc := if N.eqb (last inp 0%N) nl then a_line st + 1 else a_line st in
            AOk (MkA (a_heap st) (flush (a_meta st) (a_comments st)) (a_index st) (a_line st)
                     (a_depth st) None (a_lce st) (a_lnse st) (a_lsec st) (a_cs st) (a_cn st))
                lc                                                                 (* 463-469 *)
        | SErr e st lc => AErr e st lc
        | SCrash => ACrash
        | SFuel => AFuel
        end
    end.
End Analyze.
