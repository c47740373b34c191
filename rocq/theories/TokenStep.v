(** TokenStep: one iteration of the analyzer restated over the tokens of [Scan] instead of regex
    match objects, and the proof that it is the same function. *)
From Verif Require Import Base Regex RegexProofs Grammar Scan ScanProofs Types Analyzer.

Definition sub (inp : text) (s : span) : text := slice inp (fst s) (snd s).

Definition key_span (k : kspan) : span := match k with Plain s => s | Escaped _ s _ => s end.
Definition osub (inp : text) (v : option span) : option text := option_map (sub inp) v.
Definition orange (n : rname) (v : option span) : ranges :=
  match v with Some s => [(n, s)] | None => [] end.

Definition tfield_ranges (index e : nat) (k : kspan) (op : span) (v : option span) : ranges :=
  (R_line, (index, e)) ::
  match k with
  | Plain s => [(R_element_operator, op); (R_key, s)]
  | Escaped b s x => [(R_element_operator, op); (R_escape_begin_operator, b); (R_escape_end_operator, x); (R_key, s)]
  end ++ orange R_value v.
Definition tentry_ranges (index e : nat) (k : kspan) (op : span) (v : option span) : ranges :=
  (R_line, (index, e)) ::
  match k with
  | Plain s => [(R_entry_operator, op); (R_key, s)]
  | Escaped b s x => [(R_escape_begin_operator, b); (R_escape_end_operator, x); (R_entry_operator, op); (R_key, s)]
  end ++ orange R_value v.
Definition tcopy_ranges (index e : nat) (k : kspan) (op t : span) : ranges :=
  [(R_line, (index, e)); (R_copy_operator, op); (R_template, t)] ++
  match k with
  | Plain s => [(R_key, s)]
  | Escaped b s x => [(R_escape_begin_operator, b); (R_escape_end_operator, x); (R_key, s)]
  end.
Definition deep_op (t : option (span * span)) : bool :=
  match t with Some (o, _) => Nat.eqb (snd o - fst o) 2 | None => false end.
Definition tsection_ranges (index e : nat) (op : span) (k : kspan) (t : option (span * span)) : ranges :=
  [(R_line, (index, e)); (R_section_operator, op)] ++
  match k with
  | Plain s => [(R_key, s)]
  | Escaped b s x => [(R_escape_begin_operator, b); (R_escape_end_operator, x); (R_key, s)]
  end ++
  match t with
  | Some (o, s) => [(R_template, s); (if deep_op t then R_deep_copy_operator else R_copy_operator, o)]
  | None => []
  end.

Section Step.
  Variable inp : text.

  Definition field_node (st : ast) (e : nat) (k : kspan) (op : span) (v : option span) : node :=
    set_comments (a_comments st) (set_key (Some (sub inp (key_span k))) (set_value (osub inp v)
      (set_parent (Some (a_lsec st))
        (new_node (if opt_is v then FIELD else EMPTY_ELEMENT) (a_line st)
                  (tfield_ranges (a_index st) e k op v))))).
  Definition item_node (st : ast) (e : nat) (op : span) (v : option span) (lst : nat) : node :=
    set_comments (a_comments st) (set_value (osub inp v) (set_parent (Some lst)
      (new_node LIST_ITEM (a_line st)
        ((R_line, (a_index st, e)) :: (R_item_operator, op) :: orange R_value v)))).
  Definition entry_node (st : ast) (e : nat) (k : kspan) (op : span) (v : option span) (fs : nat) : node :=
    set_comments (a_comments st) (set_key (Some (sub inp (key_span k))) (set_value (osub inp v)
      (set_parent (Some fs)
        (new_node FIELDSET_ENTRY (a_line st) (tentry_ranges (a_index st) e k op v))))).
  Definition cont_leaf (st : ast) (e : nat) (op : span) (v : option span) (spaced : bool) : leaf :=
    MkLeaf (Some CONTINUATION) (a_line st)
      ((R_line, (a_index st, e)) ::
       (if spaced then R_spaced_line_continuation_operator else R_direct_line_continuation_operator, op) ::
       orange R_value v) (osub inp v) spaced.
  Definition section_node (st : ast) (e : nat) (op : span) (k : kspan) (t : option (span * span)) (p : nat) : node :=
    set_comments (a_comments st) (set_key (Some (sub inp (key_span k))) (set_parent (Some p)
      (set_template (osub inp (option_map snd t))
      (set_deep_copy (deep_op t)
      (set_copy (opt_is t)
        (new_node SECTION (a_line st) (tsection_ranges (a_index st) e op k t))))))).
  Definition multiline_node (st : ast) (e : nat) (op k : span) : node :=
    set_comments (a_comments st) (set_key (Some (sub inp k)) (set_parent (Some (a_lsec st))
      (new_node MULTILINE_FIELD_BEGIN (a_line st)
        [(R_line, (a_index st, e)); (R_multiline_field_operator, op); (R_key, k)]))).
  Definition comment_leaf (st : ast) (e : nat) (op : span) (v : option span) : leaf :=
    MkLeaf (Some COMMENT) (a_line st)
      ((R_line, (a_index st, e)) :: (R_comment_operator, op) :: orange R_comment v)
      (osub inp v) false.
  Definition copy_node (st : ast) (e : nat) (k : kspan) (op t : span) : node :=
    set_comments (a_comments st) (set_key (Some (sub inp (key_span k))) (set_parent (Some (a_lsec st))
      (set_template (Some (sub inp t)) (set_copy true
        (new_node EMPTY_ELEMENT (a_line st) (tcopy_ranges (a_index st) e k op t)))))).

  (** The section a new section of depth [new_depth] belongs to.
      [None]: layer skipped; [Some None]: KeyError. *)
  Definition section_parent (st : ast) (new_depth : nat) : option (option nat) :=
    if Nat.eqb new_depth (a_depth st + 1) then Some (Some (a_lsec st))
    else if Nat.eqb new_depth (a_depth st) then Some (n_parent (hget (a_heap st) (a_lsec st)))
    else if Nat.ltb new_depth (a_depth st) then
      match climb (a_heap st) (a_depth st - new_depth) (a_lsec st) with
      | Some s => Some (n_parent (hget (a_heap st) s))
      | None => Some None
      end
    else None.

  Definition add_item (id : nat) (x : node) : node :=
    match n_type x with
    | EMPTY_ELEMENT => set_items (Some [id]) (set_type LIST x)
    | _ => set_items (match n_items x with Some l => Some (l ++ [id]) | None => Some [id] end) x
    end.
  Definition add_entry (id : nat) (x : node) : node :=
    match n_type x with
    | EMPTY_ELEMENT => set_entries (Some [id]) (set_type FIELDSET x)
    | _ => set_entries (match n_entries x with Some l => Some (l ++ [id]) | None => Some [id] end) x
    end.
  Definition takes_items (t : itype) : bool := match t with LIST | EMPTY_ELEMENT => true | _ => false end.
  Definition takes_entries (t : itype) : bool := match t with FIELDSET | EMPTY_ELEMENT => true | _ => false end.

  (** state after an instruction: only heap, comments, continuable/latest element, section change *)
  Definition tstep_tok (st : ast) (t : token) (e : nat) : sres :=
    let h := a_heap st in
    let meta := a_meta st in
    let index := a_index st in
    let line := a_line st in
    let comments := a_comments st in
    let id := length h in
    let next := S e in
    let line' := S line in
    match t with
    | TEmpty _ =>
        SOk (MkA h (flush meta comments) next line' (a_depth st) None
                 (a_lce st) (a_lnse st) (a_lsec st) (a_cs st) (a_cn st))
    | TField k op v =>
        SOk (MkA (add_element (h ++ [field_node st e k op v]) (a_lsec st) id) meta next line'
                 (a_depth st) None (Some id) (Some id) (a_lsec st) (a_cs st) (a_cn st))
    | TItem op v =>
        match a_lnse st with
        | Some lst =>
            if takes_items (n_type (hget h lst)) then
              SOk (MkA (hupd (h ++ [item_node st e op v lst]) lst (add_item id)) meta next line'
                       (a_depth st) None (Some id) (Some lst) (a_lsec st) (a_cs st) (a_cn st))
            else fail_at inp st index line PMissingListForItem
        | None => fail_at inp st index line PMissingListForItem
        end
    | TEntry k op v =>
        match a_lnse st with
        | Some fs =>
            if takes_entries (n_type (hget h fs)) then
              SOk (MkA (hupd (h ++ [entry_node st e k op v fs]) fs (add_entry id)) meta next line'
                       (a_depth st) None (Some id) (Some fs) (a_lsec st) (a_cs st) (a_cn st))
            else fail_at inp st index line PMissingFieldsetForEntry
        | None => fail_at inp st index line PMissingFieldsetForEntry
        end
    | TSpaced op v =>
        match a_lce st with
        | None => fail_at inp st index line PMissingElementForContinuation
        | Some c =>
            SOk (MkA (add_continuation h c (cont_leaf st e op v true)) (flush meta comments) next line'
                     (a_depth st) None (Some c) (a_lnse st) (a_lsec st) (a_cs st) (a_cn st))
        end
    | TDirect op v =>
        match a_lce st with
        | None => fail_at inp st index line PMissingElementForContinuation
        | Some c =>
            SOk (MkA (add_continuation h c (cont_leaf st e op v false)) (flush meta comments) next line'
                     (a_depth st) None (Some c) (a_lnse st) (a_lsec st) (a_cs st) (a_cn st))
        end
    | TSection op k t =>
        let new_depth := snd op - fst op in
        match section_parent st new_depth with
        | None => fail_at inp st index line (fun i => PLayerSkip i (a_lsec st))
        | Some None => SCrash
        | Some (Some p) =>
            let h1 := add_element (h ++ [section_node st e op k t p]) p id in
            match t with
            | None => SOk (MkA h1 meta next line' new_depth None None None id (a_cs st) (a_cn st))
            | Some (_, ts) =>
                match mark_deep (S (length h)) h1 p with
                | Some h2 =>
                    SOk (MkA h2 meta next line' new_depth None None None id
                             (add_target (sub inp ts) id (a_cs st)) (a_cn st))
                | None => SFuel
                end
            end
        end
    | TMultiline op k =>
        let h1 := add_element (h ++ [multiline_node st e op k]) (a_lsec st) id in
        match find_closing (sub inp op) (sub inp k) e (skipn e inp) with
        | None =>
            fail_at inp (MkA h1 meta next line' (a_depth st) None None (Some id) (a_lsec st)
                             (a_cs st) (a_cn st))
                    next line' (fun _ => PUnterminatedMultiline id)
        | Some (stop, (o2, k2, e2)) =>
            match (if Nat.eqb stop e then Some (None, line', next)
                   else
                     match ml_lines inp (S (length inp)) next line' stop with
                     | Some (ls, line3) => Some (Some ls, line3, S stop)
                     | None => None
                     end) with
            | None => SFuel
            | Some (lines, line3, index3) =>
                let le := MkLeaf (Some MULTILINE_FIELD_END) line3
                            [(R_key, k2); (R_line, (index3, e2)); (R_multiline_field_operator, o2)]
                            None false in
                SOk (MkA (hupd h1 id (fun x => set_end (Some le) (set_lines lines x)))
                         meta (S e2) (S line3) (a_depth st) None None None
                         (a_lsec st) (a_cs st) (a_cn st))
            end
        end
    | TComment op v =>
        let c := comment_leaf st e op v in
        SOk (MkA h meta next line' (a_depth st)
                 (match comments with None => Some [c] | Some cs => Some (cs ++ [c]) end)
                 (a_lce st) (a_lnse st) (a_lsec st) (a_cs st) (a_cn st))
    | TCopy k op t =>
        SOk (MkA (add_element (h ++ [copy_node st e k op t]) (a_lsec st) id) meta next line'
                 (a_depth st) None None (Some id) (a_lsec st) (a_cs st) (add_target (sub inp t) id (a_cn st)))
    end.

  Definition tstep (st : ast) : sres :=
    match scan (a_index st) (skipn (a_index st) inp) with
    | None => fail_at inp st (a_index st) (a_line st) PInvalidLine
    | Some (t, e) => tstep_tok st t e
    end.
End Step.
