(** Property theorems about analysed documents (C04-C13).  Specifications: [SpecText], [SpecTree],
    [SpecRun], [Scan].  [analyze inp = AOk st lc] says that the analysis of [inp] succeeds;
    [a_heap st] are the instructions (number 0 is the document), [a_meta st] the comments of no
    element, [lc] the line count. *)
From Coq Require Import Permutation.
From Verif Require Import Base Types Scan Analyzer Context SpecText SpecTree SpecRun AnalyzerFinal PropAnalysisProofs.

(** A document that meets the hypotheses below. *)
Definition sample : text := U "> note
list:
- a
- b

# sec
> x
field: x
| y
set:
k = v
-- ml
 text

-- ml
## sub
copy < field

> lonely
".
Definition sample_st : ast := st_of (analyze sample).
Definition sample_at (k : nat) : ast :=
  match run sample k init_ast with Some st => st | None => init_ast end.
Example sample_analyses : analyze sample = AOk sample_st 20.
Proof. vm_compute. reflexivity. Qed.
Example sample_types : map n_type (a_heap sample_st) =
  [DOCUMENT; LIST; LIST_ITEM; LIST_ITEM; SECTION; FIELD; FIELDSET; FIELDSET_ENTRY;
   MULTILINE_FIELD_BEGIN; SECTION; EMPTY_ELEMENT].
Proof. vm_compute. reflexivity. Qed.

(** * C04 *)

(** Keys, values, templates are the input at their ranges; comments and continuations too; and
    every instruction but a list item has a key. *)
Theorem C04_texts_are_source : forall inp st lc, analyze inp = AOk st lc ->
  (forall n, In n (tl (a_heap st)) ->
     n_key n = option_map (at_range inp) (rget (n_ranges n) R_key) /\
     n_value n = option_map (at_range inp) (rget (n_ranges n) R_value) /\
     n_template n = option_map (at_range inp) (rget (n_ranges n) R_template) /\
     (n_type n <> LIST_ITEM -> n_key n <> None)) /\
  (forall l, In l (flat_map hanging (tl (a_heap st)) ++ a_meta st) ->
     (l_type l = Some COMMENT -> l_text l = option_map (at_range inp) (rget (l_ranges l) R_comment)) /\
     (l_type l = Some CONTINUATION -> l_text l = option_map (at_range inp) (rget (l_ranges l) R_value))).
Proof. exact texts_are_source. Qed.
Print Assumptions C04_texts_are_source.
Example C04_sample : map n_key (tl (a_heap sample_st)) =
  [Some (U "list"); None; None; Some (U "sec"); Some (U "field"); Some (U "set"); Some (U "k");
   Some (U "ml"); Some (U "sub"); Some (U "copy")] /\
  length (flat_map hanging (tl (a_heap sample_st)) ++ a_meta sample_st) = 7.
Proof. vm_compute. auto. Qed.

(** * C05 *)

Theorem C05_texts_trimmed : forall inp st lc, analyze inp = AOk st lc ->
  (forall n k, In n (tl (a_heap st)) -> n_key n = Some k \/ n_value n = Some k \/ n_template n = Some k -> trimmed k) /\
  (forall l v, In l (flat_map hanging (tl (a_heap st)) ++ a_meta st) ->
     l_type l = Some COMMENT \/ l_type l = Some CONTINUATION -> l_text l = Some v -> trimmed v).
Proof. exact texts_trimmed. Qed.
Print Assumptions C05_texts_trimmed.

(** * C06 *)

(** [nested] also says that ranges do not overlap. *)

Theorem C06_ranges_nested : forall inp st lc, analyze inp = AOk st lc ->
  (forall n, In n (tl (a_heap st)) -> nested inp (n_ranges n)) /\
  (forall l, In l (flat_map hanging (tl (a_heap st)) ++ a_meta st) -> nested inp (l_ranges l)).
Proof. exact ranges_nested. Qed.
Print Assumptions C06_ranges_nested.

(** * C07 *)

(** The lines of all instructions, of all detached comments and the blank lines, put in order,
    follow each other without gap or overlap from the start to the end of the input; instructions
    are numbered, and what hangs on them is recorded, in document order. *)
Theorem C07_lines_tile : forall inp st lc, analyze inp = AOk st lc ->
  exists l blanks j,
    tiles inp 0 l j /\ length inp <= j /\ Forall (blank inp) blanks /\
    Permutation l (heap_lines (a_heap st) ++ map leaf_line (a_meta st) ++ blanks) /\
    ascending 0 (heap_lines (a_heap st)) j /\ ascending 0 (map leaf_line (a_meta st)) j.
Proof. exact final_tiles. Qed.
Print Assumptions C07_lines_tile.
Example C07_sample : heap_lines (a_heap sample_st) =
  [(0, 6); (7, 12); (13, 16); (17, 20); (22, 27); (28, 31); (32, 40); (41, 44); (45, 49); (50, 55);
   (56, 61); (62, 67); (68, 68); (69, 74); (75, 81); (82, 94)].
Proof. vm_compute. reflexivity. Qed.

(** * C08 *)

(** Full statement: every recorded line number is the number of line feeds before the
    instruction, and the line count is one more than the number of line feeds.  It is false: the
    white space before an operator may contain line feeds which are not counted. *)
Theorem C08_line_numbers_refuted : exists inp st lc n s,
  analyze inp = AOk st lc /\ In (n, s) (heap_nums (a_heap st)) /\ n <> line_feeds_before inp (fst s).
Proof. exact line_numbers_wrong. Qed.
Print Assumptions C08_line_numbers_refuted.

Theorem C08_line_count_refuted : exists inp st lc,
  analyze inp = AOk st lc /\ lc <> S (line_feeds_before inp (length inp)).
Proof. exact line_count_wrong. Qed.
Print Assumptions C08_line_count_refuted.

(** What is missing is exactly the case of an instruction that stretches over several lines. *)
Theorem C08_line_numbers_partial : forall inp st lc, analyze inp = AOk st lc ->
  (forall n, In n (tl (a_heap st)) -> single_line inp (line_range (n_ranges n))) ->
  (forall n s, In (n, s) (heap_nums (a_heap st)) -> n = line_feeds_before inp (fst s)) /\
  (forall m, In m (a_meta st) -> l_line m = line_feeds_before inp (fst (leaf_line m))) /\
  lc = S (line_feeds_before inp (length inp)).
Proof. exact line_numbers_right. Qed.
Print Assumptions C08_line_numbers_partial.
Example C08_sample : forall n, In n (tl (a_heap sample_st)) -> single_line sample (line_range (n_ranges n)).
Proof. apply Forall_forall. unfold single_line. vm_compute. repeat constructor; intuition discriminate. Qed.

(** Whatever an instruction stretches over, the numbers are distinct, below the line count, and in
    the order of the instructions in the text. *)
Theorem C08_distinct : forall inp st lc, analyze inp = AOk st lc -> let ns := heap_nums (a_heap st) ++ map leaf_num (a_meta st) in
  NoDup (map fst ns) /\ forall n s, In (n, s) ns -> n < lc /\ forall m t, In (m, t) ns -> (n < m <-> fst s < fst t).
Proof. exact numbers_ordered. Qed.
Print Assumptions C08_distinct.

(** * C09 *)

(** Every instruction sits under the right parent, and child lists are complete and ordered. *)
Theorem C09_document_is_tree : forall inp st lc, analyze inp = AOk st lc -> tree (a_heap st).
Proof. exact document_is_tree. Qed.
Print Assumptions C09_document_is_tree.

(** A section line at any point of any document. *)
Theorem C09_sections_nest : forall inp st s op k t e,
  reach inp st -> a_index st < length inp ->
  scan (a_index st) (skipn (a_index st) inp) = Some (TSection op k t, e) ->
  latest is_container (a_heap st) s ->
  let n := snd op - fst op in
  if Nat.leb n (depth (hget (a_heap st) s) + 1)
  then exists st' p, reach inp st' /\
         length (a_heap st') = S (length (a_heap st)) /\
         latest (fun x => is_container x /\ depth x = n - 1) (a_heap st) p /\
         let x := hget (a_heap st') (length (a_heap st)) in
         n_type x = SECTION /\ depth x = n /\ n_parent x = Some p /\
         n_key x = Some (at_range inp (match k with Plain a => a | Escaped _ a _ => a end)) /\
         n_elements (hget (a_heap st') p) = n_elements (hget (a_heap st) p) ++ [length (a_heap st)]
  else exists i st' lc, analyze inp = AErr (PLayerSkip i s) st' lc /\
         l_line i = a_line st /\ fst (leaf_line i) = a_index st.
Proof. exact section_analysis. Qed.
Print Assumptions C09_sections_nest.
Example C09_sample : reach sample (sample_at 12) /\ a_index (sample_at 12) < length sample /\
  scan (a_index (sample_at 12)) (skipn (a_index (sample_at 12)) sample) = Some (TSection (75, 77) (Plain (78, 81)) None, 81) /\ latest is_container (a_heap (sample_at 12)) 4 /\ depth (hget (a_heap (sample_at 12)) 4) = 1.
Proof.
  split; [apply (run_reach sample 12 init_ast); [constructor|vm_compute; reflexivity]|].
  split; [vm_compute; lia|]. split; [vm_compute; reflexivity|].
  split; [|vm_compute; reflexivity]. split; [vm_compute; lia|]. split; [vm_compute; auto|].
  intros k Hk. vm_compute in Hk. do 9 (destruct k as [|k]; [try lia; intros [H|H]; vm_compute in H; discriminate|]). lia.
Qed.

(** Fields and empty elements, and copies of non-section elements, join the latest section. *)
Theorem C09_fields_attach : forall inp st s k op v e,
  reach inp st -> a_index st < length inp ->
  scan (a_index st) (skipn (a_index st) inp) = Some (TField k op v, e) ->
  latest is_container (a_heap st) s ->
  exists st', reach inp st' /\ length (a_heap st') = S (length (a_heap st)) /\
    let n := hget (a_heap st') (length (a_heap st)) in
    n_type n = match v with Some _ => FIELD | None => EMPTY_ELEMENT end /\
    n_key n = Some (at_range inp (match k with Plain a => a | Escaped _ a _ => a end)) /\
    n_value n = option_map (at_range inp) v /\ n_template n = None /\ n_conts n = None /\
    n_parent n = Some s /\
    n_elements (hget (a_heap st') s) = n_elements (hget (a_heap st) s) ++ [length (a_heap st)].
Proof. exact field_analysis. Qed.
Print Assumptions C09_fields_attach.
Example C09_sample_field : reach sample (sample_at 7) /\ a_index (sample_at 7) < length sample /\
  scan (a_index (sample_at 7)) (skipn (a_index (sample_at 7)) sample) = Some (TField (Plain (32, 37)) (37, 38) (Some (39, 40)), 40) /\ latest is_container (a_heap (sample_at 7)) 4.
Proof.
  split; [apply (run_reach sample 7 init_ast); [constructor|vm_compute; reflexivity]|].
  split; [vm_compute; lia|]. split; [vm_compute; reflexivity|].
  split; [vm_compute; lia|]. split; [vm_compute; auto|]. intros k Hk. vm_compute in Hk. lia.
Qed.

Theorem C09_copies_attach : forall inp st s k op t e,
  reach inp st -> a_index st < length inp ->
  scan (a_index st) (skipn (a_index st) inp) = Some (TCopy k op t, e) ->
  latest is_container (a_heap st) s ->
  exists st', reach inp st' /\ length (a_heap st') = S (length (a_heap st)) /\
    let n := hget (a_heap st') (length (a_heap st)) in
    n_type n = EMPTY_ELEMENT /\
    n_key n = Some (at_range inp (match k with Plain a => a | Escaped _ a _ => a end)) /\
    n_value n = None /\ n_template n = Some (at_range inp t) /\ n_conts n = None /\
    n_parent n = Some s /\
    n_elements (hget (a_heap st') s) = n_elements (hget (a_heap st) s) ++ [length (a_heap st)].
Proof. exact copy_analysis. Qed.
Print Assumptions C09_copies_attach.
Example C09_sample_copy : reach sample (sample_at 13) /\ a_index (sample_at 13) < length sample /\
  scan (a_index (sample_at 13)) (skipn (a_index (sample_at 13)) sample) = Some (TCopy (Plain (82, 86)) (87, 88) (89, 94), 94) /\ latest is_container (a_heap (sample_at 13)) 9.
Proof.
  split; [apply (run_reach sample 13 init_ast); [constructor|vm_compute; reflexivity]|].
  split; [vm_compute; lia|]. split; [vm_compute; reflexivity|].
  split; [vm_compute; lia|]. split; [vm_compute; auto|]. intros k Hk. vm_compute in Hk. lia.
Qed.

(** * C10 *)

Theorem C10_items_attach : forall inp st l op v e,
  reach inp st -> a_index st < length inp ->
  scan (a_index st) (skipn (a_index st) inp) = Some (TItem op v, e) ->
  latest (fun n => is_element n \/ is_container n) (a_heap st) l ->
  if accepts_items (hget (a_heap st) l)
  then exists st', reach inp st' /\ length (a_heap st') = S (length (a_heap st)) /\
         n_type (hget (a_heap st') (length (a_heap st))) = LIST_ITEM /\
         n_parent (hget (a_heap st') (length (a_heap st))) = Some l /\
         n_value (hget (a_heap st') (length (a_heap st))) = option_map (at_range inp) v /\
         n_type (hget (a_heap st') l) = LIST /\
         opt_list (n_items (hget (a_heap st') l)) = opt_list (n_items (hget (a_heap st) l)) ++ [length (a_heap st)] /\
         (forall j, j < length (a_heap st) -> j <> l -> hget (a_heap st') j = hget (a_heap st) j)
  else exists i st' lc, analyze inp = AErr (PMissingListForItem i) st' lc /\
         l_line i = a_line st /\ fst (leaf_line i) = a_index st.
Proof. exact item_analysis. Qed.
Print Assumptions C10_items_attach.
Example C10_sample_item : reach sample (sample_at 3) /\ a_index (sample_at 3) < length sample /\
  scan (a_index (sample_at 3)) (skipn (a_index (sample_at 3)) sample) = Some (TItem (17, 18) (Some (19, 20)), 20) /\ latest (fun n => is_element n \/ is_container n) (a_heap (sample_at 3)) 1 /\ accepts_items (hget (a_heap (sample_at 3)) 1) = true.
Proof.
  split; [apply (run_reach sample 3 init_ast); [constructor|vm_compute; reflexivity]|].
  split; [vm_compute; lia|]. split; [vm_compute; reflexivity|].
  split; [|vm_compute; reflexivity]. split; [vm_compute; lia|]. split; [vm_compute; auto|].
  intros k Hk. vm_compute in Hk. do 3 (destruct k as [|k]; [try lia; vm_compute; intuition discriminate|]). lia.
Qed.
Example C10_item_error : exists i st lc, analyze (U "a: b
- c") = AErr (PMissingListForItem i) st lc.
Proof. vm_compute. eauto. Qed.

Theorem C10_entries_attach : forall inp st l k op v e,
  reach inp st -> a_index st < length inp ->
  scan (a_index st) (skipn (a_index st) inp) = Some (TEntry k op v, e) ->
  latest (fun n => is_element n \/ is_container n) (a_heap st) l ->
  if accepts_entries (hget (a_heap st) l)
  then exists st', reach inp st' /\ length (a_heap st') = S (length (a_heap st)) /\
         n_type (hget (a_heap st') (length (a_heap st))) = FIELDSET_ENTRY /\
         n_parent (hget (a_heap st') (length (a_heap st))) = Some l /\
         n_value (hget (a_heap st') (length (a_heap st))) = option_map (at_range inp) v /\
         n_type (hget (a_heap st') l) = FIELDSET /\
         opt_list (n_entries (hget (a_heap st') l)) = opt_list (n_entries (hget (a_heap st) l)) ++ [length (a_heap st)] /\
         (forall j, j < length (a_heap st) -> j <> l -> hget (a_heap st') j = hget (a_heap st) j)
  else exists i st' lc, analyze inp = AErr (PMissingFieldsetForEntry i) st' lc /\
         l_line i = a_line st /\ fst (leaf_line i) = a_index st.
Proof. exact entry_analysis. Qed.
Print Assumptions C10_entries_attach.
Example C10_sample_entry : reach sample (sample_at 10) /\ a_index (sample_at 10) < length sample /\
  scan (a_index (sample_at 10)) (skipn (a_index (sample_at 10)) sample) = Some (TEntry (Plain (50, 51)) (52, 53) (Some (54, 55)), 55) /\ latest (fun n => is_element n \/ is_container n) (a_heap (sample_at 10)) 6 /\ accepts_entries (hget (a_heap (sample_at 10)) 6) = true.
Proof.
  split; [apply (run_reach sample 10 init_ast); [constructor|vm_compute; reflexivity]|].
  split; [vm_compute; lia|]. split; [vm_compute; reflexivity|].
  split; [|vm_compute; reflexivity]. split; [vm_compute; lia|]. split; [vm_compute; auto|]. intros k Hk. vm_compute in Hk. lia.
Qed.

(** The analysis raises each of its errors at an instruction of the corresponding kind only. *)
Theorem C10_errors_only_there : forall inp e st lc, analyze inp = AErr e st lc ->
  exists st0, reach inp st0 /\ a_index st0 < length inp /\
    match scan (a_index st0) (skipn (a_index st0) inp) with
    | None => exists i, e = PInvalidLine i
    | Some (TItem _ _, _) => exists i, e = PMissingListForItem i
    | Some (TEntry _ _ _, _) => exists i, e = PMissingFieldsetForEntry i
    | Some (TDirect _ _, _) | Some (TSpaced _ _, _) => exists i, e = PMissingElementForContinuation i
    | Some (TSection _ _ _, _) => exists i s, e = PLayerSkip i s
    | Some (TMultiline _ _, _) => exists i, e = PUnterminatedMultiline i
    | _ => False
    end.
Proof. exact analysis_error. Qed.
Print Assumptions C10_errors_only_there.

(** * C11 *)

Theorem C11_continuations_attach : forall inp st (sp : bool) op v e t,
  reach inp st -> a_index st < length inp ->
  scan (a_index st) (skipn (a_index st) inp) = Some (t, e) ->
  t = (if sp then TSpaced op v else TDirect op v) ->
  let c := length (a_heap st) - 1 in
  if accepts_continuation (hget (a_heap st) c)
  then exists st' lf, reach inp st' /\ length (a_heap st') = length (a_heap st) /\
         l_type lf = Some CONTINUATION /\ l_spaced lf = sp /\ l_text lf = option_map (at_range inp) v /\
         n_conts (hget (a_heap st') c) =
           Some (match n_conts (hget (a_heap st) c) with Some l => l | None => [] end ++ [lf]) /\
         n_key (hget (a_heap st') c) = n_key (hget (a_heap st) c) /\
         n_value (hget (a_heap st') c) = n_value (hget (a_heap st) c) /\
         (forall j, j <> c -> hget (a_heap st') j = hget (a_heap st) j)
  else exists i st' lc, analyze inp = AErr (PMissingElementForContinuation i) st' lc /\
         l_line i = a_line st /\ fst (leaf_line i) = a_index st.
Proof. exact continuation_analysis. Qed.
Print Assumptions C11_continuations_attach.
Example C11_sample : reach sample (sample_at 8) /\ a_index (sample_at 8) < length sample /\
  scan (a_index (sample_at 8)) (skipn (a_index (sample_at 8)) sample) = Some (if false then TSpaced (41, 42) (Some (43, 44)) else TDirect (41, 42) (Some (43, 44)), 44) /\ accepts_continuation (hget (a_heap (sample_at 8)) (length (a_heap (sample_at 8)) - 1)) = true.
Proof.
  split; [apply (run_reach sample 8 init_ast); [constructor|vm_compute; reflexivity]|].
  split; [vm_compute; lia|]. split; [vm_compute; reflexivity|].
  vm_compute. reflexivity.
Qed.

(** * C12 *)

(** Every multiline field of an analysed document holds what stands between its opening line and
    the first line that repeats operator and key. *)
Theorem C12_multiline_verbatim : forall inp st lc n, analyze inp = AOk st lc ->
  In n (tl (a_heap st)) -> n_type n = MULTILINE_FIELD_BEGIN ->
  exists op key stop,
    rget (n_ranges n) R_multiline_field_operator = Some op /\ rget (n_ranges n) R_key = Some key /\
    first_closing inp (at_range inp op) (at_range inp key) (snd (line_range (n_ranges n))) stop /\
    own_value inp n = between inp (snd (line_range (n_ranges n))) stop.
Proof. exact multiline_verbatim. Qed.
Print Assumptions C12_multiline_verbatim.
Example C12_sample : option_map (own_value sample) (nth_error (a_heap sample_st) 8) = Some (Some (U " text
")).
Proof. vm_compute. reflexivity. Qed.

(** An opening line at any point of any document: accepted exactly if a closing line follows. *)
Theorem C12_multiline_terminated : forall inp st op k e,
  reach inp st -> a_index st < length inp ->
  scan (a_index st) (skipn (a_index st) inp) = Some (TMultiline op k, e) ->
  (forall s, first_closing inp (at_range inp op) (at_range inp k) e s ->
     exists st', reach inp st' /\ length (a_heap st') = S (length (a_heap st)) /\
       let n := hget (a_heap st') (length (a_heap st)) in
       n_type n = MULTILINE_FIELD_BEGIN /\ line_range (n_ranges n) = (a_index st, e) /\
       n_key n = Some (at_range inp k) /\
       own_value inp n = between inp e s) /\
  ((forall s, e <= s -> ~ closes inp (at_range inp op) (at_range inp k) s) ->
     exists st' lc, analyze inp = AErr (PUnterminatedMultiline (length (a_heap st))) st' lc /\
       let n := hget (a_heap st') (length (a_heap st)) in
       n_line n = a_line st /\ line_range (n_ranges n) = (a_index st, e)).
Proof. exact multiline_analysis. Qed.
Print Assumptions C12_multiline_terminated.
Example C12_sample_open : reach sample (sample_at 11) /\ a_index (sample_at 11) < length sample /\
  scan (a_index (sample_at 11)) (skipn (a_index (sample_at 11)) sample) = Some (TMultiline (56, 58) (59, 61), 61) /\ closes sample (at_range sample (56, 58)) (at_range sample (59, 61)) 68.
Proof.
  split; [apply (run_reach sample 11 init_ast); [constructor|vm_compute; reflexivity]|].
  split; [vm_compute; lia|]. split; [vm_compute; reflexivity|].
  vm_compute. split; [reflexivity|discriminate].
Qed.
Example C12_unterminated : exists i st lc, analyze (U "-- a
-- b") = AErr (PUnterminatedMultiline i) st lc.
Proof. vm_compute. eauto. Qed.

(** * C13 *)

Theorem C13_comments_belong : forall inp st lc n, analyze inp = AOk st lc ->
  In n (tl (a_heap st)) -> own_comments inp (a_meta st) n.
Proof. exact comments_belong. Qed.
Print Assumptions C13_comments_belong.
Example C13_sample :
  map (fun n => map l_text (match n_comments n with Some l => l | None => [] end)) (tl (a_heap sample_st)) =
  [[Some (U "note")]; []; []; []; [Some (U "x")]; []; []; []; []; []] /\
  map l_text (a_meta sample_st) = [Some (U "lonely")].
Proof. vm_compute. auto. Qed.
