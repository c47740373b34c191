(** C62: error messages say what is wrong.  [told loc n] (SpecNotice) are the words a locale has
    for a notice [n]: a sort of mistake with the line, key or message it mentions. *)
From Verif Require Import Base Types Messages Analyzer SpecText SpecTree Reporter Errors Context Faults SpecLoad ParseOutcome SpecNotice NoticeProofs OpenKeyProofs NoticeRun.

(** No two notices share their words, in any of the locales that come with the library. *)
Theorem C62_apart : forall loc n n', shipped loc -> told loc n = told loc n' -> n = n'.
Proof. exact told_apart. Qed.
Print Assumptions C62_apart.

(** They contain the line and the key or message. *)
Theorem C62_mentions : forall loc n, shipped loc ->
  (forall l, line_told n = Some l -> contains (told loc n) (dec l)) /\ (forall k, words_told n = Some k -> contains (told loc n) k).
Proof. exact (fun loc n Hl => conj (fun l => told_line loc n l Hl) (fun k => told_words loc n k Hl)). Qed.
Print Assumptions C62_mentions.

(** A parse error has the words of its fault, about the line and the key of what it reports. *)
Theorem C62_parse : forall inp loc rk src x, parse_context inp loc rk src = Raise (ParseError x) ->
  exists p h meta lc n, fault inp p h meta lc /\ fault_notice inp h p n /\ er_text x = told loc n.
Proof. exact parse_noted. Qed.
Print Assumptions C62_parse.

(** An invalid line is said to have an unterminated escaped key exactly when it opens one with
    backticks and does not close it, and then the selection starts behind the backticks. *)
Theorem C62_open_key : forall inp loc rk src x i st lc, analyze inp = AErr (PInvalidLine i) st lc -> parse_context inp loc rk src = Raise (ParseError x) ->
  (exists col, leaves_key_open (at_range inp (leaf_line i)) col /\ er_text x = told loc (KeyNotClosed (S (l_line i))) /\
     sel_from (er_selection x) = MkCursor col (fst (leaf_line i) + col) (l_line i)) \/
  (~ (exists col, leaves_key_open (at_range inp (leaf_line i)) col) /\ er_text x = told loc (NoPattern (S (l_line i))) /\
     sel_from (er_selection x) = MkCursor 0 (fst (leaf_line i)) (l_line i)).
Proof. exact open_key_words. Qed.
Print Assumptions C62_open_key.

(** So do complaints about a parsed document, but for the two whose words the program gives. *)
Theorem C62_validation : forall c v x, validation_error c v = Ok x ->
  (exists n, complaint_notice (c_heap c) v n /\ er_text x = told (c_locale c) n) \/ own_words v = Some (er_text x).
Proof. exact validation_noted. Qed.
Print Assumptions C62_validation.

(** Two broken texts with the same message have the same fault on the same line. *)
Theorem C62_same_words : forall inp inp' loc rk rk' src src' x y, shipped loc ->
  parse_context inp loc rk src = Raise (ParseError x) -> parse_context inp' loc rk' src' = Raise (ParseError y) -> er_text x = er_text y ->
  exists p h meta lc p' h' meta' lc' n, fault inp p h meta lc /\ fault_notice inp h p n /\ fault inp' p' h' meta' lc' /\ fault_notice inp' h' p' n /\ er_text x = told loc n.
Proof. exact same_words. Qed.
Print Assumptions C62_same_words.

(** * Concrete cases *)
Definition nl_text : text := [10%N].
Definition said_of (inp : text) (loc : locale) : option (text * selection_t) :=
  match parse_context inp loc TextReporter None with Raise (ParseError x) => Some (er_text x, er_selection x) | _ => None end.
(** an open key on the second line, a line without pattern, a second text with the same fault *)
Definition open_doc : text := U "a: 1" ++ nl_text ++ U "# `` key` : x".
Definition open_doc' : text := U "> note" ++ nl_text ++ U "`b: 2".
Definition plain_doc : text := U "a: 1" ++ nl_text ++ U "`b` here: no".
Example C62_open : said_of open_doc en = Some (told en (KeyNotClosed 2), MkSel (MkCursor 4 9 1) (MkCursor 13 18 1)).
Proof. vm_compute. reflexivity. Qed.
Example C62_open_de : option_map fst (said_of open_doc de) = Some (told de (KeyNotClosed 2)).
Proof. vm_compute. reflexivity. Qed.
Example C62_same : option_map fst (said_of open_doc en) = option_map fst (said_of open_doc' en).
Proof. vm_compute. reflexivity. Qed.
Example C62_closed : said_of plain_doc en = Some (told en (NoPattern 2), MkSel (MkCursor 0 5 1) (MkCursor 12 17 1)).
Proof. vm_compute. reflexivity. Qed.
Example C62_open_line : leaves_key_open (U "# `` key` : x") 4.
Proof.
  exists [], 1, (U " "), 1, (U " key` : x"). split; [vm_compute; reflexivity|]. split; [reflexivity|]. split; [vm_compute; reflexivity|].
  split; [vm_compute; discriminate|]. split; [intros [r H]; vm_compute in H; discriminate H|]. split; [|vm_compute; reflexivity].
  intros (a & b & H). vm_compute in H. do 9 (destruct a as [|? a]; [vm_compute in H; discriminate H|]; vm_compute in H; injection H as _ H). destruct a; vm_compute in H; discriminate H.
Qed.
(** the two messages with the same beginning and the same end *)
Example C62_close_call : told en (ElementNotFound 1 (U "2 the section")) <> told en (SectionNotFound 1 (U "2 the section")) /\
  told en (FieldNotClosed (U "a' starting in line 1") 2) <> told en (FieldNotClosed (U "a") 1).
Proof. split; vm_compute; discriminate. Qed.
Example C62_cyclic : option_map fst (said_of (U "a < b" ++ nl_text ++ U "b < a") es) = Some (told es (CopiedIntoItself 2 (U "a"))).
Proof. vm_compute. reflexivity. Qed.
