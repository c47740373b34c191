(** Types: instructions.

    In Python every instruction is a mutable dict.  Elements, sections, list items and fieldset
    entries are mutated after creation and are referenced from several places, so they live in a
    heap ([list node]) and are referenced by number; number 0 is the document.  Comments,
    continuations, multiline value lines, multiline ends and unparsed lines are never mutated
    after creation, so they are plain values ([leaf]).  A dict key that may be absent is an
    [option] (or a [bool] for marker keys). *)
From Verif Require Import Base.

(** constants.py:10-24.  The analyzer gives multiline field ends the *string*
    'MULTILINE_FIELD_END' as type (analyzer.py:392) instead of the enum member; no code compares
    it with anything, so one constant stands for it. *)
Inductive itype :=
| COMMENT | CONTINUATION | DOCUMENT | EMPTY_ELEMENT | FIELD | FIELDSET | FIELDSET_ENTRY
| LIST | LIST_ITEM | MULTILINE_FIELD_BEGIN | MULTILINE_FIELD_END | MULTILINE_FIELD_VALUE
| SECTION | UNPARSED.

Definition itype_eqb (a b : itype) : bool :=
  match a, b with
  | COMMENT, COMMENT | CONTINUATION, CONTINUATION | DOCUMENT, DOCUMENT
  | EMPTY_ELEMENT, EMPTY_ELEMENT | FIELD, FIELD | FIELDSET, FIELDSET
  | FIELDSET_ENTRY, FIELDSET_ENTRY | LIST, LIST | LIST_ITEM, LIST_ITEM
  | MULTILINE_FIELD_BEGIN, MULTILINE_FIELD_BEGIN | MULTILINE_FIELD_END, MULTILINE_FIELD_END
  | MULTILINE_FIELD_VALUE, MULTILINE_FIELD_VALUE | SECTION, SECTION | UNPARSED, UNPARSED => true
  | _, _ => false
  end.

Lemma itype_eqb_eq a b : itype_eqb a b = true <-> a = b.
Proof. destruct a, b; simpl; split; intro; congruence. Qed.

(** Keys of the 'ranges' dict. *)
Inductive rname :=
| R_line | R_key | R_value | R_template | R_comment
| R_element_operator | R_entry_operator | R_item_operator
| R_escape_begin_operator | R_escape_end_operator
| R_section_operator | R_copy_operator | R_deep_copy_operator
| R_multiline_field_operator | R_comment_operator
| R_direct_line_continuation_operator | R_spaced_line_continuation_operator.

Definition rname_eqb (a b : rname) : bool :=
  match a, b with
  | R_line, R_line | R_key, R_key | R_value, R_value | R_template, R_template
  | R_comment, R_comment | R_element_operator, R_element_operator
  | R_entry_operator, R_entry_operator | R_item_operator, R_item_operator
  | R_escape_begin_operator, R_escape_begin_operator
  | R_escape_end_operator, R_escape_end_operator
  | R_section_operator, R_section_operator | R_copy_operator, R_copy_operator
  | R_deep_copy_operator, R_deep_copy_operator
  | R_multiline_field_operator, R_multiline_field_operator
  | R_comment_operator, R_comment_operator
  | R_direct_line_continuation_operator, R_direct_line_continuation_operator
  | R_spaced_line_continuation_operator, R_spaced_line_continuation_operator => true
  | _, _ => false
  end.

Lemma rname_eqb_eq a b : rname_eqb a b = true <-> a = b.
Proof. destruct a, b; simpl; split; intro; congruence. Qed.

(** 'ranges': insertion ordered dict from range name to (begin, end). *)
Definition ranges := list (rname * (nat * nat)).
Fixpoint rget (r : ranges) (n : rname) : option (nat * nat) :=
  match r with
  | [] => None
  | (m, s) :: r' => if rname_eqb m n then Some s else rget r' n
  end.
(** [instruction['ranges']['line']]: every instruction but the document has it. *)
Definition line_range (r : ranges) : nat * nat :=
  match rget r R_line with Some s => s | None => (0, 0) end.

Record leaf := MkLeaf {
  l_type : option itype;        (* absent on the first instruction of an error context *)
  l_line : nat;
  l_ranges : ranges;
  l_text : option text;         (* 'value' of a continuation, 'comment' of a comment *)
  l_spaced : bool               (* 'spaced' of a continuation *)
}.

(** The cached 'computed_*' entries written by context.py are the [n_c*] fields. *)
Record node := MkNode {
  n_type : itype;
  n_line : nat;
  n_ranges : ranges;
  n_key : option text;
  n_value : option text;
  n_comments : option (list leaf);
  n_parent : option nat;
  n_elements : list nat;
  n_items : option (list nat);
  n_entries : option (list nat);
  n_conts : option (list leaf);
  n_lines : option (list leaf);
  n_end : option leaf;
  n_template : option text;
  n_deep_copy : bool;
  n_deep_resolve : bool;
  n_copy : bool;
  n_mirror : option nat;
  n_extend : option nat;
  n_cvalue : option (option text);
  n_ccomment : option (option text);
  n_cels : option (list nat);
  n_centries : option (list nat);
  n_citems : option (list nat)
}.

Definition set_type (v : itype) (n : node) : node :=
  MkNode v (n_line n) (n_ranges n) (n_key n) (n_value n) (n_comments n) (n_parent n) (n_elements n) (n_items n) (n_entries n) (n_conts n) (n_lines n) (n_end n) (n_template n) (n_deep_copy n) (n_deep_resolve n) (n_copy n) (n_mirror n) (n_extend n) (n_cvalue n) (n_ccomment n) (n_cels n) (n_centries n) (n_citems n).
Definition set_line (v : nat) (n : node) : node :=
  MkNode (n_type n) v (n_ranges n) (n_key n) (n_value n) (n_comments n) (n_parent n) (n_elements n) (n_items n) (n_entries n) (n_conts n) (n_lines n) (n_end n) (n_template n) (n_deep_copy n) (n_deep_resolve n) (n_copy n) (n_mirror n) (n_extend n) (n_cvalue n) (n_ccomment n) (n_cels n) (n_centries n) (n_citems n).
Definition set_ranges (v : ranges) (n : node) : node :=
  MkNode (n_type n) (n_line n) v (n_key n) (n_value n) (n_comments n) (n_parent n) (n_elements n) (n_items n) (n_entries n) (n_conts n) (n_lines n) (n_end n) (n_template n) (n_deep_copy n) (n_deep_resolve n) (n_copy n) (n_mirror n) (n_extend n) (n_cvalue n) (n_ccomment n) (n_cels n) (n_centries n) (n_citems n).
Definition set_key (v : option text) (n : node) : node :=
  MkNode (n_type n) (n_line n) (n_ranges n) v (n_value n) (n_comments n) (n_parent n) (n_elements n) (n_items n) (n_entries n) (n_conts n) (n_lines n) (n_end n) (n_template n) (n_deep_copy n) (n_deep_resolve n) (n_copy n) (n_mirror n) (n_extend n) (n_cvalue n) (n_ccomment n) (n_cels n) (n_centries n) (n_citems n).
Definition set_value (v : option text) (n : node) : node :=
  MkNode (n_type n) (n_line n) (n_ranges n) (n_key n) v (n_comments n) (n_parent n) (n_elements n) (n_items n) (n_entries n) (n_conts n) (n_lines n) (n_end n) (n_template n) (n_deep_copy n) (n_deep_resolve n) (n_copy n) (n_mirror n) (n_extend n) (n_cvalue n) (n_ccomment n) (n_cels n) (n_centries n) (n_citems n).
Definition set_comments (v : option (list leaf)) (n : node) : node :=
  MkNode (n_type n) (n_line n) (n_ranges n) (n_key n) (n_value n) v (n_parent n) (n_elements n) (n_items n) (n_entries n) (n_conts n) (n_lines n) (n_end n) (n_template n) (n_deep_copy n) (n_deep_resolve n) (n_copy n) (n_mirror n) (n_extend n) (n_cvalue n) (n_ccomment n) (n_cels n) (n_centries n) (n_citems n).
Definition set_parent (v : option nat) (n : node) : node :=
  MkNode (n_type n) (n_line n) (n_ranges n) (n_key n) (n_value n) (n_comments n) v (n_elements n) (n_items n) (n_entries n) (n_conts n) (n_lines n) (n_end n) (n_template n) (n_deep_copy n) (n_deep_resolve n) (n_copy n) (n_mirror n) (n_extend n) (n_cvalue n) (n_ccomment n) (n_cels n) (n_centries n) (n_citems n).
Definition set_elements (v : list nat) (n : node) : node :=
  MkNode (n_type n) (n_line n) (n_ranges n) (n_key n) (n_value n) (n_comments n) (n_parent n) v (n_items n) (n_entries n) (n_conts n) (n_lines n) (n_end n) (n_template n) (n_deep_copy n) (n_deep_resolve n) (n_copy n) (n_mirror n) (n_extend n) (n_cvalue n) (n_ccomment n) (n_cels n) (n_centries n) (n_citems n).
Definition set_items (v : option (list nat)) (n : node) : node :=
  MkNode (n_type n) (n_line n) (n_ranges n) (n_key n) (n_value n) (n_comments n) (n_parent n) (n_elements n) v (n_entries n) (n_conts n) (n_lines n) (n_end n) (n_template n) (n_deep_copy n) (n_deep_resolve n) (n_copy n) (n_mirror n) (n_extend n) (n_cvalue n) (n_ccomment n) (n_cels n) (n_centries n) (n_citems n).
Definition set_entries (v : option (list nat)) (n : node) : node :=
  MkNode (n_type n) (n_line n) (n_ranges n) (n_key n) (n_value n) (n_comments n) (n_parent n) (n_elements n) (n_items n) v (n_conts n) (n_lines n) (n_end n) (n_template n) (n_deep_copy n) (n_deep_resolve n) (n_copy n) (n_mirror n) (n_extend n) (n_cvalue n) (n_ccomment n) (n_cels n) (n_centries n) (n_citems n).
Definition set_conts (v : option (list leaf)) (n : node) : node :=
  MkNode (n_type n) (n_line n) (n_ranges n) (n_key n) (n_value n) (n_comments n) (n_parent n) (n_elements n) (n_items n) (n_entries n) v (n_lines n) (n_end n) (n_template n) (n_deep_copy n) (n_deep_resolve n) (n_copy n) (n_mirror n) (n_extend n) (n_cvalue n) (n_ccomment n) (n_cels n) (n_centries n) (n_citems n).
Definition set_lines (v : option (list leaf)) (n : node) : node :=
  MkNode (n_type n) (n_line n) (n_ranges n) (n_key n) (n_value n) (n_comments n) (n_parent n) (n_elements n) (n_items n) (n_entries n) (n_conts n) v (n_end n) (n_template n) (n_deep_copy n) (n_deep_resolve n) (n_copy n) (n_mirror n) (n_extend n) (n_cvalue n) (n_ccomment n) (n_cels n) (n_centries n) (n_citems n).
Definition set_end (v : option leaf) (n : node) : node :=
  MkNode (n_type n) (n_line n) (n_ranges n) (n_key n) (n_value n) (n_comments n) (n_parent n) (n_elements n) (n_items n) (n_entries n) (n_conts n) (n_lines n) v (n_template n) (n_deep_copy n) (n_deep_resolve n) (n_copy n) (n_mirror n) (n_extend n) (n_cvalue n) (n_ccomment n) (n_cels n) (n_centries n) (n_citems n).
Definition set_template (v : option text) (n : node) : node :=
  MkNode (n_type n) (n_line n) (n_ranges n) (n_key n) (n_value n) (n_comments n) (n_parent n) (n_elements n) (n_items n) (n_entries n) (n_conts n) (n_lines n) (n_end n) v (n_deep_copy n) (n_deep_resolve n) (n_copy n) (n_mirror n) (n_extend n) (n_cvalue n) (n_ccomment n) (n_cels n) (n_centries n) (n_citems n).
Definition set_deep_copy (v : bool) (n : node) : node :=
  MkNode (n_type n) (n_line n) (n_ranges n) (n_key n) (n_value n) (n_comments n) (n_parent n) (n_elements n) (n_items n) (n_entries n) (n_conts n) (n_lines n) (n_end n) (n_template n) v (n_deep_resolve n) (n_copy n) (n_mirror n) (n_extend n) (n_cvalue n) (n_ccomment n) (n_cels n) (n_centries n) (n_citems n).
Definition set_deep_resolve (v : bool) (n : node) : node :=
  MkNode (n_type n) (n_line n) (n_ranges n) (n_key n) (n_value n) (n_comments n) (n_parent n) (n_elements n) (n_items n) (n_entries n) (n_conts n) (n_lines n) (n_end n) (n_template n) (n_deep_copy n) v (n_copy n) (n_mirror n) (n_extend n) (n_cvalue n) (n_ccomment n) (n_cels n) (n_centries n) (n_citems n).
Definition set_copy (v : bool) (n : node) : node :=
  MkNode (n_type n) (n_line n) (n_ranges n) (n_key n) (n_value n) (n_comments n) (n_parent n) (n_elements n) (n_items n) (n_entries n) (n_conts n) (n_lines n) (n_end n) (n_template n) (n_deep_copy n) (n_deep_resolve n) v (n_mirror n) (n_extend n) (n_cvalue n) (n_ccomment n) (n_cels n) (n_centries n) (n_citems n).
Definition set_mirror (v : option nat) (n : node) : node :=
  MkNode (n_type n) (n_line n) (n_ranges n) (n_key n) (n_value n) (n_comments n) (n_parent n) (n_elements n) (n_items n) (n_entries n) (n_conts n) (n_lines n) (n_end n) (n_template n) (n_deep_copy n) (n_deep_resolve n) (n_copy n) v (n_extend n) (n_cvalue n) (n_ccomment n) (n_cels n) (n_centries n) (n_citems n).
Definition set_extend (v : option nat) (n : node) : node :=
  MkNode (n_type n) (n_line n) (n_ranges n) (n_key n) (n_value n) (n_comments n) (n_parent n) (n_elements n) (n_items n) (n_entries n) (n_conts n) (n_lines n) (n_end n) (n_template n) (n_deep_copy n) (n_deep_resolve n) (n_copy n) (n_mirror n) v (n_cvalue n) (n_ccomment n) (n_cels n) (n_centries n) (n_citems n).
Definition set_cvalue (v : option (option text)) (n : node) : node :=
  MkNode (n_type n) (n_line n) (n_ranges n) (n_key n) (n_value n) (n_comments n) (n_parent n) (n_elements n) (n_items n) (n_entries n) (n_conts n) (n_lines n) (n_end n) (n_template n) (n_deep_copy n) (n_deep_resolve n) (n_copy n) (n_mirror n) (n_extend n) v (n_ccomment n) (n_cels n) (n_centries n) (n_citems n).
Definition set_ccomment (v : option (option text)) (n : node) : node :=
  MkNode (n_type n) (n_line n) (n_ranges n) (n_key n) (n_value n) (n_comments n) (n_parent n) (n_elements n) (n_items n) (n_entries n) (n_conts n) (n_lines n) (n_end n) (n_template n) (n_deep_copy n) (n_deep_resolve n) (n_copy n) (n_mirror n) (n_extend n) (n_cvalue n) v (n_cels n) (n_centries n) (n_citems n).
Definition set_cels (v : option (list nat)) (n : node) : node :=
  MkNode (n_type n) (n_line n) (n_ranges n) (n_key n) (n_value n) (n_comments n) (n_parent n) (n_elements n) (n_items n) (n_entries n) (n_conts n) (n_lines n) (n_end n) (n_template n) (n_deep_copy n) (n_deep_resolve n) (n_copy n) (n_mirror n) (n_extend n) (n_cvalue n) (n_ccomment n) v (n_centries n) (n_citems n).
Definition set_centries (v : option (list nat)) (n : node) : node :=
  MkNode (n_type n) (n_line n) (n_ranges n) (n_key n) (n_value n) (n_comments n) (n_parent n) (n_elements n) (n_items n) (n_entries n) (n_conts n) (n_lines n) (n_end n) (n_template n) (n_deep_copy n) (n_deep_resolve n) (n_copy n) (n_mirror n) (n_extend n) (n_cvalue n) (n_ccomment n) (n_cels n) v (n_citems n).
Definition set_citems (v : option (list nat)) (n : node) : node :=
  MkNode (n_type n) (n_line n) (n_ranges n) (n_key n) (n_value n) (n_comments n) (n_parent n) (n_elements n) (n_items n) (n_entries n) (n_conts n) (n_lines n) (n_end n) (n_template n) (n_deep_copy n) (n_deep_resolve n) (n_copy n) (n_mirror n) (n_extend n) (n_cvalue n) (n_ccomment n) (n_cels n) (n_centries n) v.

(** A fresh dict with 'line' and 'ranges' (analyzer.py:73-78). *)
Definition new_node (t : itype) (line : nat) (r : ranges) : node :=
  MkNode t line r None None None None [] None None None None None None false false false
         None None None None None None None.

(** analyzer.py:14-17 *)
Definition document_node : node := new_node DOCUMENT 0 [].

Definition heap := list node.
(** Dereference.  Every id stored in a heap built by the model is in range (proved); the default
    only makes the function total. *)
Definition hget (h : heap) (i : nat) : node := nth i h document_node.
Definition hupd (h : heap) (i : nat) (f : node -> node) : heap := upd h i f.

