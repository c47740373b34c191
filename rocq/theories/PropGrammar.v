(** Property theorems: the line grammar (C03).  Specification: [Scan]. *)
From Verif Require Import Base Regex Grammar Scan ScanProofs.

(** C03: at every position of every text the parser's regular expression matches exactly when
    the declarative line grammar recognises an instruction there, with exactly the grammar's
    extents ([encode] only assigns the extents to the numbered groups), and in the same place. *)
Theorem C03_line_grammar_decided : forall (inp : text) (i : nat),
  match_at REGEX inp i =
  option_map (fun '(t, e) => MkMatch i e (encode t)) (scan i (skipn i inp)).
Proof. exact match_scan. Qed.
Print Assumptions C03_line_grammar_decided.

(** C03, multiline terminator: the search for the closing line finds exactly the first line that
    repeats operator and key. *)
Theorem C03_closing_line_decided : forall (inp op key : text) (i : nat),
  visible_start op -> visible_start key ->
  search (TERMINATOR op key) inp i =
  option_map (fun '(s, (o, k, e)) => MkMatch s e [(2, k); (1, o)])
             (find_closing op key i (skipn i inp)).
Proof. exact search_closing. Qed.
Print Assumptions C03_closing_line_decided.

Example C03_section_copy :
  scan 0 (U "## `` a ` b `` << tpl  ") =
  Some (TSection (0, 2) (Escaped (3, 5) (6, 11) (12, 14)) (Some ((15, 17), (18, 21))), 23).
Proof. vm_compute. reflexivity. Qed.
Example C03_closing_found :
  visible_start (U "--") /\ visible_start (U "k") /\
  find_closing (U "--") (U "k") 4 (skipn 4 (U "-- k
a
 -- k ")) = Some (6, ((8, 10), (11, 12), 13)).
Proof. vm_compute. auto. Qed.
