(** Property theorems about line numbers (C08) and those of selections (C40), exactly.
    Specification: [SpecCount]; [selects]: SpecSelect. *)
From Verif Require Import Base Types Messages Analyzer SpecText SpecCount CountProofs Reporter Errors Context Lookup SpecSelect Faults PropErrorsProofs CountSelect.

(** Every recorded line number falls short of the line feeds before its line by the line feeds
    inside earlier instructions, and so does the line count for the whole text. *)
Theorem C08_accounting : forall inp st lc, analyze inp = AOk st lc ->
  (forall n s, In (n, s) (heap_nums (a_heap st) ++ map leaf_num (a_meta st)) ->
     n + swallowed inp (a_heap st) (fst s) = line_feeds_before inp (fst s)) /\
  lc + swallowed inp (a_heap st) (length inp) = S (line_feeds_before inp (length inp)).
Proof. exact numbers_accounted. Qed.
Print Assumptions C08_accounting.

(** A number is right exactly if no earlier instruction stretches over several lines; the line
    count exactly if no instruction does. *)
Theorem C08_right_exactly : forall inp st lc, analyze inp = AOk st lc ->
  (forall n s, In (n, s) (heap_nums (a_heap st) ++ map leaf_num (a_meta st)) ->
     (n = line_feeds_before inp (fst s) <->
      forall m, In m (tl (a_heap st)) -> fst (line_range (n_ranges m)) < fst s -> single_line inp (line_range (n_ranges m)))) /\
  (lc = S (line_feeds_before inp (length inp)) <->
   forall m, In m (tl (a_heap st)) -> single_line inp (line_range (n_ranges m))).
Proof. exact numbers_right_when. Qed.
Print Assumptions C08_right_exactly.

(** a field whose colon is two lines below its key, then an item's list and a loose comment *)
Definition stretched : text := U "a

: 1
b <
c
> loose

c:
- d".
Example C08_stretched : match analyze stretched with
  | AOk st lc =>
      heap_nums (a_heap st) = [(0, (0, 6)); (1, (7, 12)); (4, (22, 24)); (5, (25, 28))] /\
      map leaf_num (a_meta st) = [(2, (13, 20))] /\ lc = 6 /\
      map (swallowed stretched (a_heap st)) [0; 7; 13; 22; 28] = [0; 2; 3; 3; 3] /\
      map (line_feeds_before stretched) [0; 7; 13; 22; 28] = [0; 3; 5; 7; 8]
  | _ => False
  end.
Proof. vm_compute. repeat split. Qed.

(** * C40 *)

(** The cursors of errors are positions of the text; their line numbers are short by the line feeds
    inside earlier instructions, for errors found while parsing *)
Theorem C40_accounting_parse : forall inp loc rk src x, parse_context inp loc rk src = Raise (ParseError x) ->
  selects (counted inp (read_so_far inp)) (er_selection x).
Proof. exact parse_counted. Qed.
Print Assumptions C40_accounting_parse.
(** and for all errors about parsed documents (C40_calls, C40_missing, C40_made). *)
Theorem C40_accounting : forall inp loc rk src c, parse_context inp loc rk src = Ok c -> forall v x,
  validation_error c v = Ok x -> selects (counted inp (c_heap c)) (er_selection x).
Proof. exact complaint_counted. Qed.
Print Assumptions C40_accounting.
(** counted from 0, the list is in line 7 of the text, reported as line 4; the rubbish in line 9, reported as line 6 *)
Example C40_stretched :
  match parse_context stretched en TextReporter None with
  | Ok c => match validation_error c (BadElement [] 3) with
            | Ok x => er_selection x = MkSel (MkCursor 0 22 4) (MkCursor 3 28 5) /\ swallowed stretched (c_heap c) 22 = 3
            | Raise _ => False
            end
  | Raise _ => False
  end /\
  match parse_context (stretched ++ [nl] ++ U "rubbish") en TextReporter None with
  | Raise (ParseError x) => er_selection x = MkSel (MkCursor 0 29 6) (MkCursor 7 36 6)
  | _ => False
  end.
Proof. vm_compute. repeat split. Qed.
