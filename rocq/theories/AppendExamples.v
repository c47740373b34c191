(** AppendExamples: concrete texts with and without further lines (C56). *)
From Verif Require Import Base Regex Grammar Scan Types Analyzer Resolver SpecText SpecAppend Reporter Errors Context Messages Elements Session SessionRun ReadOps.

(** an open list, an unfinished section and a comment at the end; then more of all *)
Definition head_part : text := U "# s
a:
- x
| 1
> c".
Definition tail_part : text := U "- y
| 2
e:
k = v
## t
-- m
 text
-- m
f: 0".
Definition heap_of (inp : text) : heap := match analyze inp with AOk st _ => a_heap st | _ => [] end.
Definition ok_b (inp : text) : bool := match analyze inp with AOk _ _ => true | _ => false end.
Lemma ok_true inp : ok_b inp = true -> exists st lc, analyze inp = AOk st lc /\ a_heap st = heap_of inp.
Proof. unfold ok_b, heap_of. destruct (analyze inp); try discriminate. eauto. Qed.

Lemma parts_read : (exists st lc, analyze head_part = AOk st lc /\ a_heap st = heap_of head_part) /\
  (exists st lc, analyze (head_part ++ nl :: tail_part) = AOk st lc /\ a_heap st = heap_of (head_part ++ nl :: tail_part)).
Proof. split; apply ok_true; vm_compute; reflexivity. Qed.
Lemma parts_grow : map n_items (heap_of head_part) = [None; None; Some [3]; None] /\
  map n_elements (heap_of head_part) = [[1]; [2]; []; []] /\
  map n_items (heap_of (head_part ++ nl :: tail_part)) = [None; None; Some [3; 4]; None; None; None; None; None; None; None] /\
  map n_elements (heap_of (head_part ++ nl :: tail_part)) = [[1]; [2; 5; 7]; []; []; []; []; []; [8; 9]; []; []].
Proof. vm_compute. repeat split. Qed.

(** an error in the first part, and one in the second *)
Definition bad_head : text := U "a: b
- c".
Definition bad_tail : text := U "# s
### t
- x".
Lemma bad_head_fails : exists i st lc, analyze bad_head = AErr (PMissingListForItem i) st lc /\ located (a_heap st) (PMissingListForItem i) = Some (5, 8).
Proof. vm_compute. do 3 eexists. split; reflexivity. Qed.
Lemma bad_tail_fails : exists e st lc, analyze (head_part ++ nl :: bad_tail) = AErr e st lc /\ located (a_heap st) e = Some (23, 28).
Proof. vm_compute. do 3 eexists. split; reflexivity. Qed.

(** a line that is no instruction, with visible text behind *)
Definition invalid_head : text := U "a: b
what is this
c: d".
Lemma invalid_fails : exists i st lc, analyze invalid_head = AErr (PInvalidLine i) st lc /\
  (exists p c, snd (line_range (l_ranges i)) < p /\ nth_error invalid_head p = Some c /\ is_space c = false /\ c <> c_lt).
Proof. vm_compute. do 3 eexists. split; [reflexivity|]. exists 18, 99%N. cbn. split; [lia|]. repeat split. discriminate. Qed.

(** errors undone by further lines *)
Definition cut_off : list (text * text) :=
  [(U "key", U ": value"); (U "a: b
#", U "section"); (U "copy <", U "a
a: b"); (U "`key`", U "
  : value"); (U "-- m
text", U "-- m")].
Definition error_name (e : perr) : nat := match e with PInvalidLine _ => 1 | PUnterminatedMultiline _ => 2 | _ => 3 end.
Definition outcome (inp : text) : nat := match analyze inp with AOk _ _ => 0 | AErr e _ _ => error_name e | _ => 9 end.
Lemma cut_off_outcomes : map (fun p => outcome (fst p)) cut_off = [1; 1; 1; 1; 2] /\ map (fun p => outcome (fst p ++ nl :: snd p)) cut_off = [0; 0; 0; 0; 0].
Proof. vm_compute. split; reflexivity. Qed.

Definition blank_lines : text := U "

  	
 ".
Definition asked : text := U "-- m
some
  text
-- m
l < m2
- x
m2:
- y".
Lemma asked_parsed : parse_context asked en TextReporter None = Ok (ctx_of asked).
Proof. vm_compute. reflexivity. Qed.
Lemma asked_answers : answered asked (AskValue 1) (after asked [AskRaw 0; AskItems 2] (c_heap (ctx_of asked))) = Ok (AnsText (Some (U "some
  text"))) /\ forallb is_space blank_lines = true.
Proof. vm_compute. split; reflexivity. Qed.

Lemma errors_undone :
  (exists d s i st lc st' lc', analyze d = AErr (PInvalidLine i) st lc /\ analyze (d ++ nl :: s) = AOk st' lc') /\
  (exists d s f st lc st' lc', analyze d = AErr (PUnterminatedMultiline f) st lc /\ analyze (d ++ nl :: s) = AOk st' lc').
Proof.
  split.
  - exists (U "key"), (U ": value"). vm_compute. do 5 eexists. split; reflexivity.
  - exists (U "-- m
text"), (U "-- m"). vm_compute. do 5 eexists. split; reflexivity.
Qed.
