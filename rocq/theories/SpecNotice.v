(** SpecNotice: what an error message is about (SPEC for C62).
    A [notice] is the sort of a mistake together with the line, the key or the message of the
    program it mentions.  [told] are the words of a locale for it: which entry of the message
    module is used (messages/en.py, de.py, es.py), and in which order it is filled. *)
From Verif Require Import Base Types Messages Analyzer SpecText Faults.

Inductive notice :=
| Wrong (q : qmsg)
| WrongKey (q : qmsg) (key : text)
| CommentMissing
| Unexpected
| CommentProblem (message : text)
| KeyProblem (message : text)
| ValueProblem (message : text)
| FieldEmpty (key : text)
| EntryEmpty (key : text)
| ItemEmpty (key : text)
| CopiedIntoItself (line : nat) (key : text)
| NoPattern (line : nat)
| KeyNotClosed (line : nat)
| NothingToContinue (line : nat)
| NoFieldset (line : nat)
| NoList (line : nat)
| TooDeep (line : nat)
| ElementNotFound (line : nat) (key : text)
| SectionNotFound (line : nat) (key : text)
| Ambiguous (key : text)
| FieldNotClosed (key : text) (line : nat).

Definition told (loc : locale) (n : notice) : text :=
  match n with
  | Wrong q => plain loc q
  | WrongKey q k => with_key loc q k
  | CommentMissing => lc_missing_comment loc
  | Unexpected => lc_unexpected_element loc
  | CommentProblem m => lc_comment_error loc m
  | KeyProblem m => lc_key_error loc m
  | ValueProblem m => lc_value_error loc m
  | FieldEmpty k => lc_missing_field_value loc k
  | EntryEmpty k => lc_missing_fieldset_entry_value loc k
  | ItemEmpty k => lc_missing_list_item_value loc k
  | CopiedIntoItself l k => lc_cyclic_dependency loc l k
  | NoPattern l => lc_invalid_line loc l
  | KeyNotClosed l => lc_unterminated_escaped_key loc l
  | NothingToContinue l => lc_missing_element_for_continuation loc l
  | NoFieldset l => lc_missing_fieldset_for_fieldset_entry loc l
  | NoList l => lc_missing_list_for_list_item loc l
  | TooDeep l => lc_section_hierarchy_layer_skip loc l
  | ElementNotFound l k => lc_non_section_element_not_found loc l k
  | SectionNotFound l k => lc_section_not_found loc l k
  | Ambiguous k => lc_two_or_more_templates_found loc k
  | FieldNotClosed k l => lc_unterminated_multiline_field loc k l
  end.

Definition shipped (loc : locale) : Prop := loc = en \/ loc = de \/ loc = es.

(** the line, the key and the message a notice speaks of *)
Definition line_told (n : notice) : option nat :=
  match n with
  | CopiedIntoItself l _ | NoPattern l | KeyNotClosed l | NothingToContinue l | NoFieldset l | NoList l | TooDeep l
  | ElementNotFound l _ | SectionNotFound l _ | FieldNotClosed _ l => Some l
  | _ => None
  end.
Definition words_told (n : notice) : option text :=
  match n with
  | WrongKey _ k | CommentProblem k | KeyProblem k | ValueProblem k | FieldEmpty k | EntryEmpty k | ItemEmpty k
  | CopiedIntoItself _ k | ElementNotFound _ k | SectionNotFound _ k | Ambiguous k | FieldNotClosed k _ => Some k
  | _ => None
  end.

(** a line whose key is opened by backticks and not closed: blanks, number signs, blanks, a run of
    backticks, and then something that does not contain as many backticks in a row; [col] is the
    column behind the run *)
Definition tick : N := 96%N.
Definition leaves_key_open (line : text) (col : nat) : Prop := exists s1 hashes s2 n rest,
  line = (s1 ++ repeat 35%N hashes ++ s2) ++ repeat tick (S n) ++ rest /\
  forallb is_space s1 = true /\ forallb is_space s2 = true /\
  rest <> [] /\ ~ (exists r, rest = tick :: r) /\ ~ (exists a b, rest = a ++ repeat tick (S n) ++ b) /\
  col = length (s1 ++ repeat 35%N hashes ++ s2) + S n.

(** a broken text, as stopped at with heap [h]: the notice of each fault.  Lines are counted from
    one; the line and key are those of the reported line or element. *)
Inductive fault_notice (inp : text) (h : heap) : perr -> notice -> Prop :=
| fn_pattern i : ~ (exists col, leaves_key_open (at_range inp (leaf_line i)) col) ->
    fault_notice inp h (PInvalidLine i) (NoPattern (S (l_line i)))
| fn_escape i col : leaves_key_open (at_range inp (leaf_line i)) col ->
    fault_notice inp h (PInvalidLine i) (KeyNotClosed (S (l_line i)))
| fn_continue i : fault_notice inp h (PMissingElementForContinuation i) (NothingToContinue (S (l_line i)))
| fn_list i : fault_notice inp h (PMissingListForItem i) (NoList (S (l_line i)))
| fn_fieldset i : fault_notice inp h (PMissingFieldsetForEntry i) (NoFieldset (S (l_line i)))
| fn_layer i s : fault_notice inp h (PLayerSkip i s) (TooDeep (S (l_line i)))
| fn_multiline e k : n_key (hget h e) = Some k ->
    fault_notice inp h (PUnterminatedMultiline e) (FieldNotClosed k (S (n_line (hget h e))))
| fn_list_node e : fault_notice inp h (PMissingListForItemNode e) (NoList (S (n_line (hget h e))))
| fn_fieldset_node e : fault_notice inp h (PMissingFieldsetForEntryNode e) (NoFieldset (S (n_line (hget h e))))
| fn_cyclic i chain e k : e = i \/ e = last chain 0 -> n_template (hget h e) = Some k ->
    fault_notice inp h (PCyclic i chain) (CopiedIntoItself (S (n_line (hget h e))) k)
| fn_two c a b k : n_template (hget h c) = Some k -> fault_notice inp h (PTwoTemplates c a b) (Ambiguous k)
| fn_element c k : n_template (hget h c) = Some k ->
    fault_notice inp h (PNonSectionNotFound c) (ElementNotFound (S (n_line (hget h c))) k)
| fn_section c k : n_template (hget h c) = Some k ->
    fault_notice inp h (PSectionNotFound c) (SectionNotFound (S (n_line (hget h c))) k).

(** a complaint about a parsed document *)
Inductive complaint_notice (h : heap) : complaint -> notice -> Prop :=
| cn_comment m e : complaint_notice h (BadComment m e) (CommentProblem m)
| cn_key m e : complaint_notice h (BadKey m e) (KeyProblem m)
| cn_value m e : complaint_notice h (BadValue m e) (ValueProblem m)
| cn_no_comment e : complaint_notice h (NoComment e) CommentMissing
| cn_no_element p q : complaint_notice h (NoElement None p q) (Wrong q)
| cn_no_element_key k p q : complaint_notice h (NoElement (Some k) p q) (WrongKey q k)
| cn_many es q : complaint_notice h (TooMany None es q) (Wrong q)
| cn_many_key k es q : complaint_notice h (TooMany (Some k) es q) (WrongKey q k)
| cn_kind e q : complaint_notice h (OtherKind None e q) (Wrong q)
| cn_kind_key k e q : complaint_notice h (OtherKind (Some k) e q) (WrongKey q k)
| cn_unexpected m e : m = None \/ m = Some [] -> complaint_notice h (NotExpected m e) Unexpected
| cn_field e k : n_type (hget h e) = FIELD \/ n_type (hget h e) = EMPTY_ELEMENT \/ n_type (hget h e) = MULTILINE_FIELD_BEGIN ->
    n_key (hget h e) = Some k -> complaint_notice h (NoValue e) (FieldEmpty k)
| cn_entry e k : n_type (hget h e) = FIELDSET_ENTRY -> n_key (hget h e) = Some k -> complaint_notice h (NoValue e) (EntryEmpty k)
| cn_item e p k : n_type (hget h e) = LIST_ITEM -> n_parent (hget h e) = Some p -> n_key (hget h p) = Some k ->
    complaint_notice h (NoValue e) (ItemEmpty k).
(** these two carry the words of the program alone *)
Definition own_words (v : complaint) : option text :=
  match v with
  | BadElement m _ => Some m
  | NotExpected (Some (x :: m)) _ => Some (x :: m)
  | _ => None
  end.
