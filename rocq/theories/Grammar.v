(** Grammar: transcription of [grammar_regex.py] (whole file), piece by piece under the names
    used there, of the multiline terminator pattern built in [analyzer.py:336] and of
    [Parsing.UNTERMINATED_ESCAPED_KEY] ([errors/parsing.py:7]).  Group numbers are the ones the
    Python pattern gets (checked against the [*_INDEX] constants of the file). *)
From Verif Require Import Base Regex.

Definition c_pipe : char := 124%N.      (* | *)
Definition c_bslash : char := 92%N.     (* \ *)
Definition c_gt : char := 62%N.         (* > *)
Definition c_dash : char := 45%N.       (* - *)
Definition c_hash : char := 35%N.       (* # *)
Definition c_lt : char := 60%N.         (* < *)
Definition c_colon : char := 58%N.      (* : *)
Definition c_eq : char := 61%N.         (* = *)
Definition c_tick : char := 96%N.       (* ` *)
Definition c_sp : char := 32%N.

(** [[^\S\n]*] and [\s*] *)
Definition HS : re := Star true (Chr hspace).
Definition SP : re := Star true (Chr is_space).

(** grammar_regex.py:7  [([^\n]+?)?] *)
Definition OPTIONAL (n : nat) : re := Opt (Grp n (plus false (Chr not_nl))).
(** grammar_regex.py:8  [(\S[^\n]*?)] *)
Definition nonspace (c : char) : bool := negb (is_space c).
Definition REQUIRED (n : nat) : re := Grp n (Cat (Chr nonspace) (Star false (Chr not_nl))).

(** grammar_regex.py:11-12 *)
Definition EMPTY : re := Grp 1 Eps.
Definition EMPTY_LINE_INDEX := 1.

(** grammar_regex.py:16-18 *)
Definition DIRECT_LINE_CONTINUATION : re := Cat (Grp 2 (lit c_pipe)) (Cat HS (OPTIONAL 3)).
Definition DIRECT_LINE_CONTINUATION_OPERATOR_INDEX := 2.
Definition DIRECT_LINE_CONTINUATION_VALUE_INDEX := 3.

(** grammar_regex.py:21-23 *)
Definition SPACED_LINE_CONTINUATION : re := Cat (Grp 4 (lit c_bslash)) (Cat HS (OPTIONAL 5)).
Definition SPACED_LINE_CONTINUATION_OPERATOR_INDEX := 4.
Definition SPACED_LINE_CONTINUATION_VALUE_INDEX := 5.

(** grammar_regex.py:28-30 *)
Definition COMMENT_RE : re := Cat (Grp 6 (lit c_gt)) (Cat HS (OPTIONAL 7)).
Definition COMMENT_OPERATOR_INDEX := 6.
Definition COMMENT_VALUE_INDEX := 7.

(** grammar_regex.py:33-35 *)
Definition LIST_ITEM_RE : re := Cat (Grp 8 (lit c_dash)) (Cat (NLook (lit c_dash)) (Cat HS (OPTIONAL 9))).
Definition LIST_ITEM_OPERATOR_INDEX := 8.
Definition LIST_ITEM_VALUE_INDEX := 9.

(** grammar_regex.py:38-40  [(-{2,})(?!-)[^\S\n]*REQUIRED] *)
Definition MULTILINE_FIELD : re :=
  Cat (Grp 10 (Cat (lit c_dash) (Cat (lit c_dash) (Star true (lit c_dash)))))
      (Cat (NLook (lit c_dash)) (Cat HS (REQUIRED 11))).
Definition MULTILINE_FIELD_OPERATOR_INDEX := 10.
Definition MULTILINE_FIELD_KEY_INDEX := 11.

(** grammar_regex.py:43-44  [(#+)(?!#)] *)
Definition SECTION_OPERATOR : re := Cat (Grp 12 (plus true (lit c_hash))) (NLook (lit c_hash)).
Definition SECTION_OPERATOR_INDEX := 12.

(** grammar_regex.py:47-48  [([^\s`<][^<\n]*?)] *)
Definition skey_first (c : char) : bool := negb (is_space c || N.eqb c c_tick || N.eqb c c_lt).
Definition skey_char (c : char) : bool := negb (N.eqb c c_lt || N.eqb c nl).
Definition SECTION_KEY_UNESCAPED : re := Grp 13 (Cat (Chr skey_first) (Star false (Chr skey_char))).
Definition SECTION_KEY_UNESCAPED_INDEX := 13.

(** grammar_regex.py:52,72  [(`+)(?!`)[^\S\n]*(\S[^\n]*?)[^\S\n]*(\b)] for group numbers
    [b], [b+1], [b+2] *)
Definition ESCAPED (b : nat) : re :=
  Cat (Grp b (plus true (lit c_tick)))
      (Cat (NLook (lit c_tick))
           (Cat HS (Cat (REQUIRED (b + 1)) (Cat HS (Grp (b + 2) (Ref b)))))).

(** grammar_regex.py:51-54 *)
Definition SECTION_KEY_ESCAPE_BEGIN_OPERATOR_INDEX := 14.
Definition SECTION_KEY_ESCAPED : re := ESCAPED 14.
Definition SECTION_KEY_ESCAPED_INDEX := 15.
Definition SECTION_KEY_ESCAPE_END_OPERATOR_INDEX := 16.

(** grammar_regex.py:58-62 *)
Definition SECTION_KEY : re := Alt SECTION_KEY_UNESCAPED SECTION_KEY_ESCAPED.
Definition SECTION_TEMPLATE : re :=
  Opt (Cat (Grp 17 (Alt (Cat (lit c_lt) (NLook (lit c_lt))) (Cat (lit c_lt) (lit c_lt))))
           (Cat HS (REQUIRED 18))).
Definition SECTION_RE : re :=
  Cat SECTION_OPERATOR (Cat SP (Cat SECTION_KEY (Cat HS SECTION_TEMPLATE))).
Definition SECTION_COPY_OPERATOR_INDEX := 17.
Definition SECTION_TEMPLATE_INDEX := 18.

(** grammar_regex.py:25,64 *)
Definition EARLY_DETERMINED : re :=
  Alt DIRECT_LINE_CONTINUATION (Alt SPACED_LINE_CONTINUATION (Alt COMMENT_RE
    (Alt LIST_ITEM_RE (Alt MULTILINE_FIELD SECTION_RE)))).

(** grammar_regex.py:67-68  [([^\s>#\-`\\|:=<][^\n:=<]*?)] *)
Definition key_first (c : char) : bool :=
  negb (is_space c || N.eqb c c_gt || N.eqb c c_hash || N.eqb c c_dash || N.eqb c c_tick ||
        N.eqb c c_bslash || N.eqb c c_pipe || N.eqb c c_colon || N.eqb c c_eq || N.eqb c c_lt).
Definition key_char (c : char) : bool :=
  negb (N.eqb c nl || N.eqb c c_colon || N.eqb c c_eq || N.eqb c c_lt).
Definition KEY_UNESCAPED : re := Grp 19 (Cat (Chr key_first) (Star false (Chr key_char))).
Definition KEY_UNESCAPED_INDEX := 19.

(** grammar_regex.py:71-74 *)
Definition KEY_ESCAPE_BEGIN_OPERATOR_INDEX := 20.
Definition KEY_ESCAPED : re := ESCAPED 20.
Definition KEY_ESCAPED_INDEX := 21.
Definition KEY_ESCAPE_END_OPERATOR_INDEX := 22.

(** grammar_regex.py:76 *)
Definition KEY : re := Alt KEY_UNESCAPED KEY_ESCAPED.

(** grammar_regex.py:80-82 *)
Definition ELEMENT_OR_FIELD : re := Cat (Grp 23 (lit c_colon)) (Cat HS (OPTIONAL 24)).
Definition ELEMENT_OPERATOR_INDEX := 23.
Definition FIELD_VALUE_INDEX := 24.

(** grammar_regex.py:86-88 *)
Definition FIELDSET_ENTRY_RE : re := Cat (Grp 25 (lit c_eq)) (Cat HS (OPTIONAL 26)).
Definition FIELDSET_ENTRY_OPERATOR_INDEX := 25.
Definition FIELDSET_ENTRY_VALUE_INDEX := 26.

(** grammar_regex.py:91-93 *)
Definition COPY : re := Cat (Grp 27 (lit c_lt)) (Cat SP (REQUIRED 28)).
Definition COPY_OPERATOR_INDEX := 27.
Definition TEMPLATE_INDEX := 28.

(** grammar_regex.py:95 *)
Definition LATE_DETERMINED : re :=
  Cat KEY (Cat SP (Alt ELEMENT_OR_FIELD (Alt FIELDSET_ENTRY_RE COPY))).

(** grammar_regex.py:97 *)
Definition NOT_EMPTY : re := Alt EARLY_DETERMINED LATE_DETERMINED.

(** [(?=\n|$)] *)
Definition EOL : re := Look (Alt (lit nl) Eos).

(** grammar_regex.py:99 *)
Definition REGEX : re := Cat HS (Cat (Alt EMPTY NOT_EMPTY) (Cat HS EOL)).

(** analyzer.py:336
    [\n[^\S\n]*(operator)(?!-)[^\S\n]*(re.escape(key))[^\S\n]*(?=\n|$)]
    (the operator is a run of dashes, so it needs no escaping) *)
Definition TERMINATOR (operator key : text) : re :=
  Cat (lit nl) (Cat HS (Cat (Grp 1 (lits operator)) (Cat (NLook (lit c_dash))
    (Cat HS (Cat (Grp 2 (lits key)) (Cat HS EOL)))))).

(** errors/parsing.py:7  [^\s*#*\s*(`+)(?!`)((?:(?!\1).)+)$]; [.] is any character but the
    line feed; [^] is trivially true because the pattern is only used with [.match]. *)
Definition UNTERMINATED_ESCAPED_KEY : re :=
  Cat SP (Cat (Star true (lit c_hash)) (Cat SP (Cat (Grp 1 (plus true (lit c_tick)))
    (Cat (NLook (lit c_tick))
      (Cat (Grp 2 (plus true (Cat (NLook (Ref 1)) (Chr not_nl)))) Eos))))).

(** Tests of the transcription (literals; not theorems). *)
Definition mshow (s : String.string) : option (nat * groups) :=
  match match_at REGEX (U s) 0 with Some mo => Some (m_end mo, m_groups mo) | None => None end.

Example t_field : mshow "key: value "%string = Some (11, [(24,(5,10)); (23,(3,4)); (19,(0,3))]).
Proof. vm_compute. reflexivity. Qed.
Example t_escaped : mshow "`` `key` ``  : v"%string
  = Some (16, [(24,(15,16)); (23,(13,14)); (22,(9,11)); (21,(3,8)); (20,(0,2))]).
Proof. vm_compute. reflexivity. Qed.
Example t_section : mshow "## a << b"%string
  = Some (9, [(18,(8,9)); (17,(5,7)); (13,(3,4)); (12,(0,2))]).
Proof. vm_compute. reflexivity. Qed.
Example t_multi : mshow "--- a b "%string = Some (8, [(11,(4,7)); (10,(0,3))]).
Proof. vm_compute. reflexivity. Qed.
Example t_invalid : mshow "--"%string = None.
Proof. vm_compute. reflexivity. Qed.
