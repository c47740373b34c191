(** PropAppend: a text and the same text followed by a line feed and further lines (C56). *)
From Verif Require Import Base Regex Grammar Scan Types Messages Analyzer SpecText SpecAppend AppendProofs Reporter Errors Context SessionRun ReadOps AppendReads AppendExamples.

(** Both readable: the instructions read first are the same, but for lines added to elements that were still
    open; what is new stands behind. *)
Theorem C56_beginning_kept : forall d s st lc st' lc', analyze d = AOk st lc -> analyze (d ++ nl :: s) = AOk st' lc' ->
  (length (a_heap st) <= length (a_heap st') /\
   forall i, i < length (a_heap st) -> continued (length (a_heap st)) (hget (a_heap st) i) (hget (a_heap st') i)) /\
  forall i, length (a_heap st) <= i < length (a_heap st') -> exists p e, rget (n_ranges (hget (a_heap st') i)) R_line = Some (p, e) /\ length d < p.
Proof. exact kept. Qed.
Print Assumptions C56_beginning_kept.

(** If only the whole is unreadable, the error is located behind the beginning. *)
Theorem C56_later_errors : forall d s st lc e st' lc', analyze d = AOk st lc -> analyze (d ++ nl :: s) = AErr e st' lc' ->
  exists p q, located (a_heap st') e = Some (p, q) /\ length d < p.
Proof. exact later_errors. Qed.
Print Assumptions C56_later_errors.

(** Errors stay what they are, whatever follows, unless the line is no instruction or a multiline field
    has no end. *)
Theorem C56_errors_stay : forall d s e st lc, analyze d = AErr e st lc -> ~ open_ended e ->
  exists st' lc', analyze (d ++ nl :: s) = AErr e st' lc' /\ a_heap st' = a_heap st.
Proof. exact errors_stay. Qed.
Print Assumptions C56_errors_stay.

(** Lines that are no instruction stay so if anything visible but `<` stands behind them. *)
Theorem C56_invalid_lines_stay : forall d s i st lc, analyze d = AErr (PInvalidLine i) st lc ->
  (exists p c, snd (line_range (l_ranges i)) < p /\ nth_error d p = Some c /\ is_space c = false /\ c <> c_lt) ->
  exists st' lc', analyze (d ++ nl :: s) = AErr (PInvalidLine i) st' lc' /\ a_heap st' = a_heap st.
Proof. exact invalid_stays. Qed.
Print Assumptions C56_invalid_lines_stay.

(** Not all errors stay: a key, section operator or copy operator at the end is completed by the
    lines that follow, and a multiline field is ended. *)
Theorem C56_errors_undone_refuted :
  (exists d s i st lc st' lc', analyze d = AErr (PInvalidLine i) st lc /\ analyze (d ++ nl :: s) = AOk st' lc') /\
  (exists d s f st lc st' lc', analyze d = AErr (PUnterminatedMultiline f) st lc /\ analyze (d ++ nl :: s) = AOk st' lc').
Proof. exact errors_undone. Qed.
Print Assumptions C56_errors_undone_refuted.

(** White space at the end changes nothing: neither the instructions nor any answer, whatever was asked before. *)
Theorem C56_blank_end : forall d s loc rk src c, forallb is_space s = true -> parse_context d loc rk src = Ok c ->
  exists c', parse_context (d ++ nl :: s) loc rk src = Ok c' /\ c_heap c' = c_heap c /\ c_meta c' = c_meta c /\
    forall hist a, answered (d ++ nl :: s) a (after (d ++ nl :: s) hist (c_heap c')) = answered d a (after d hist (c_heap c)).
Proof. exact blank_parse. Qed.
Print Assumptions C56_blank_end.

Example C56_sample :
  (exists st lc, analyze head_part = AOk st lc /\ a_heap st = heap_of head_part) /\
  (exists st lc, analyze (head_part ++ nl :: tail_part) = AOk st lc /\ a_heap st = heap_of (head_part ++ nl :: tail_part)) /\
  (exists e st lc, analyze (head_part ++ nl :: bad_tail) = AErr e st lc /\ located (a_heap st) e = Some (23, 28)) /\
  (exists i st lc, analyze bad_head = AErr (PMissingListForItem i) st lc /\ located (a_heap st) (PMissingListForItem i) = Some (5, 8)) /\
  (exists i st lc, analyze invalid_head = AErr (PInvalidLine i) st lc /\
    (exists p c, snd (line_range (l_ranges i)) < p /\ nth_error invalid_head p = Some c /\ is_space c = false /\ c <> c_lt)) /\
  map (fun p => outcome (fst p)) cut_off = [1; 1; 1; 1; 2] /\ map (fun p => outcome (fst p ++ nl :: snd p)) cut_off = [0; 0; 0; 0; 0] /\
  parse_context asked en TextReporter None = Ok (ctx_of asked) /\ forallb is_space blank_lines = true /\
  answered asked (AskValue 1) (after asked [AskRaw 0; AskItems 2] (c_heap (ctx_of asked))) = Ok (AnsText (Some (U "some
  text"))).
Proof.
  split; [exact (proj1 parts_read)|]. split; [exact (proj2 parts_read)|]. split; [exact bad_tail_fails|]. split; [exact bad_head_fails|].
  split; [exact invalid_fails|]. split; [exact (proj1 cut_off_outcomes)|]. split; [exact (proj2 cut_off_outcomes)|].
  split; [exact asked_parsed|]. split; [exact (proj2 asked_answers)|exact (proj1 asked_answers)].
Qed.
Example C56_sample_grows : map n_items (heap_of head_part) = [None; None; Some [3]; None] /\
  map n_elements (heap_of head_part) = [[1]; [2]; []; []] /\
  map n_items (heap_of (head_part ++ nl :: tail_part)) = [None; None; Some [3; 4]; None; None; None; None; None; None; None] /\
  map n_elements (heap_of (head_part ++ nl :: tail_part)) = [[1]; [2; 5; 7]; []; []; []; []; []; [8; 9]; []; []].
Proof. exact parts_grow. Qed.
