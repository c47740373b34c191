(** PropRead: properties of reading values, comments, items and entries (C15-C18, C22-C24).
    [after inp hist h] is the document after any sequence of questions [hist] (values, comments,
    items, entries, elements and raw() of any instructions, answered or not). *)
From Coq Require Import Relations.
From Verif Require Import Base Types Messages Reporter Errors Context SpecText SpecTree SpecResolve SpecRead ReadOps PropReadProofs.

(** * C15 *)

(** The value of an element, item or entry that is not a copy consists of its parts, joined as
    specified (for a multiline field: of the lines between its markers). *)
Theorem C15_value_joined : forall inp loc rk src c, parse_context inp loc rk src = Ok c ->
  forall hist e, n_type (hget (c_heap c) e) <> SECTION -> n_template (hget (c_heap c) e) = None ->
  exists v, answered inp (AskValue e) (after inp hist (c_heap c)) = Ok (AnsText v) /\ plain_value inp (hget (c_heap c) e) v.
Proof. intros inp loc rk src c H. exact (value_joined H). Qed.
Print Assumptions C15_value_joined.

(** The specification allows one value only. *)
Theorem C15_one_value : forall inp n v w, plain_value inp n v -> plain_value inp n w -> v = w.
Proof. exact plain_value_fun. Qed.
Print Assumptions C15_one_value.

Example C15_spaced : answered (U "a: one
|
\
| two
|three
\ four") (AskValue 1) (heap_of (U "a: one
|
\
| two
|three
\ four")) = Ok (AnsText (Some (U "one twothree four"))).
Proof. vm_compute. reflexivity. Qed.

(** * C16 *)

Theorem C16_same_answer : forall inp loc rk src c, parse_context inp loc rk src = Ok c ->
  forall hist a, answerable (c_heap c) a ->
  answered inp a (after inp hist (c_heap c)) = answered inp a (c_heap c).
Proof. intros inp loc rk src c H. exact (same_answer H). Qed.
Print Assumptions C16_same_answer.

(** [c24_doc] is a document with a copied fieldset, a twice copied list and a twice copied field *)
Example C16_history : answerable (heap_of c24_doc) (AskEntries 4) /\
  answered c24_doc (AskEntries 4) (after c24_doc [AskRaw 0; AskItems 10; AskElements 0; AskEntries 1; AskEntries 4] (heap_of c24_doc)) = Ok (AnsList [2; 5; 6]) /\
  after c24_doc [AskRaw 0] (heap_of c24_doc) <> heap_of c24_doc.
Proof. split; [vm_compute; reflexivity|]. split; [vm_compute; reflexivity|]. vm_compute. discriminate. Qed.

(** * C17 *)

(** Full statement: raw() twice gives the same result.  False after an exception: for a section
    that extends an (empty) copy of another section, the first raw() raises TypeError and the
    second one returns a result without the copied elements. *)
Theorem C17_raw_twice_refuted : exists inp c e x, parse_context inp en TextReporter None = Ok c /\
  answered inp (AskRaw e) (c_heap c) = Raise TypeError /\
  answered inp (AskRaw e) (after inp [AskRaw e] (c_heap c)) = Ok (AnsRaw x).
Proof. exact raw_twice_wrong. Qed.
Print Assumptions C17_raw_twice_refuted.

(** If raw() returns, then from any state it returns the same whenever it is asked again directly
    or after raw() of other elements that returned. *)
Theorem C17_raw_again_partial : forall inp e x h, answered inp (AskRaw e) h = Ok (AnsRaw x) ->
  forall others, returns inp others (after inp [AskRaw e] h) ->
  answered inp (AskRaw e) (after inp (AskRaw e :: map AskRaw others) h) = Ok (AnsRaw x).
Proof. exact raw_again. Qed.
Print Assumptions C17_raw_again_partial.

Example C17_copies : exists x, answered c24_doc (AskRaw 0) (heap_of c24_doc) = Ok (AnsRaw x) /\
  returns c24_doc [1; 4; 0; 9] (after c24_doc [AskRaw 0] (heap_of c24_doc)).
Proof. exact c17_copies. Qed.

(** * C18 *)

(** Full statement: reading any comment never fails.  False for a single empty comment line. *)
Theorem C18_never_fails_refuted : exists inp c e, parse_context inp en TextReporter None = Ok c /\
  answered inp (AskComment e) (c_heap c) = Raise KeyError.
Proof. exact comment_fails. Qed.
Print Assumptions C18_never_fails_refuted.

(** The kept indentation is not what stands in the document: it is replaced by spaces. *)
Theorem C18_kept_indentation_refuted : exists inp c e t, parse_context inp en TextReporter None = Ok c /\
  answered inp (AskComment e) (c_heap c) = Ok (AnsText (Some t)) /\
  exists a b, t = a ++ nl :: b /\ forall x y, inp <> x ++ b ++ nl :: y.
Proof. exact comment_spaces. Qed.
Print Assumptions C18_kept_indentation_refuted.

(** Otherwise the text of a comment block is the specified one. *)
Theorem C18_comment_text_partial : forall inp loc rk src c, parse_context inp loc rk src = Ok c ->
  forall hist e, match n_comments (hget (c_heap c) e) with Some [x] => l_text x <> None | _ => True end ->
  exists v, answered inp (AskComment e) (after inp hist (c_heap c)) = Ok (AnsText v) /\
    match n_comments (hget (c_heap c) e) with None => v = None | Some ls => block_text ls v end.
Proof. intros inp loc rk src c H. exact (comment_block H). Qed.
Print Assumptions C18_comment_text_partial.

Theorem C18_one_text : forall ls v w, block_text ls v -> block_text ls w -> v = w.
Proof. exact block_text_fun. Qed.
Print Assumptions C18_one_text.

Example C18_block : answered (U ">
>    first
>
>  second
>
x: 1") (AskComment 1) (heap_of (U ">
>    first
>
>  second
>
x: 1")) = Ok (AnsText (Some (U "  first

second"))).
Proof. vm_compute. reflexivity. Qed.

(** * C22 *)

(** [e] copies [t] through any number of elements that add nothing. *)
Theorem C22_bare_copies : forall inp loc rk src c, parse_context inp loc rk src = Ok c ->
  forall e t, clos_trans nat (bare_copy (c_heap c)) e t -> forall hist, let h := after inp hist (c_heap c) in
  ((n_type (hget (c_heap c) t) = FIELD \/ n_type (hget (c_heap c) t) = MULTILINE_FIELD_BEGIN) ->
     n_type (hget (c_heap c) e) = FIELD /\ answered inp (AskValue e) h = answered inp (AskValue t) h) /\
  (n_type (hget (c_heap c) t) = LIST ->
     n_type (hget (c_heap c) e) = LIST /\ answered inp (AskItems e) h = answered inp (AskItems t) h) /\
  (n_type (hget (c_heap c) t) = FIELDSET ->
     n_type (hget (c_heap c) e) = FIELDSET /\ answered inp (AskEntries e) h = answered inp (AskEntries t) h).
Proof. intros inp loc rk src c H. exact (bare_chain H). Qed.
Print Assumptions C22_bare_copies.

Example C22_two_steps : clos_trans nat (bare_copy (heap_of c24_doc)) 12 14 /\ n_type (hget (heap_of c24_doc) 14) = FIELD /\
  answered c24_doc (AskValue 12) (heap_of c24_doc) = Ok (AnsText (Some (U "v"))).
Proof. exact c22_two_steps. Qed.

(** * C23 *)

Theorem C23_list_appends : forall inp loc rk src c, parse_context inp loc rk src = Ok c ->
  forall hist e t, template_is false (c_heap c) e t -> n_type (hget (c_heap c) e) = LIST ->
  (n_type (hget (c_heap c) t) = LIST \/ n_type (hget (c_heap c) t) = EMPTY_ELEMENT) /\
  exists l, (n_type (hget (c_heap c) t) = LIST -> answered inp (AskItems t) (after inp hist (c_heap c)) = Ok (AnsList l)) /\
    (n_type (hget (c_heap c) t) = EMPTY_ELEMENT -> l = []) /\
    answered inp (AskItems e) (after inp hist (c_heap c)) = Ok (AnsList (l ++ own_items (c_heap c) e)).
Proof. intros inp loc rk src c H. exact (list_extended H). Qed.
Print Assumptions C23_list_appends.

Example C23_chain : template_is false (heap_of c24_doc) 10 9 /\ template_is false (heap_of c24_doc) 9 7 /\
  own_items (heap_of c24_doc) 10 = [11] /\ answered c24_doc (AskItems 10) (heap_of c24_doc) = Ok (AnsList [8; 11]).
Proof. exact c23_chain. Qed.

(** * C24 *)

Theorem C24_fieldset_overrides : forall inp loc rk src c, parse_context inp loc rk src = Ok c ->
  forall hist e t, template_is false (c_heap c) e t -> n_type (hget (c_heap c) e) = FIELDSET ->
  (n_type (hget (c_heap c) t) = FIELDSET \/ n_type (hget (c_heap c) t) = EMPTY_ELEMENT) /\
  exists l l', (n_type (hget (c_heap c) t) = FIELDSET -> answered inp (AskEntries t) (after inp hist (c_heap c)) = Ok (AnsList l)) /\
    (n_type (hget (c_heap c) t) = EMPTY_ELEMENT -> l = []) /\
    without (c_heap c) (own_entries (c_heap c) e) l l' /\
    answered inp (AskEntries e) (after inp hist (c_heap c)) = Ok (AnsList (l' ++ own_entries (c_heap c) e)).
Proof. intros inp loc rk src c H. exact (fieldset_extended H). Qed.
Print Assumptions C24_fieldset_overrides.

Example C24_override : template_is false (heap_of c24_doc) 4 1 /\ n_type (hget (heap_of c24_doc) 4) = FIELDSET /\
  answered c24_doc (AskEntries 1) (heap_of c24_doc) = Ok (AnsList [2; 3]) /\
  answered c24_doc (AskEntries 4) (heap_of c24_doc) = Ok (AnsList [2; 5; 6]).
Proof. exact c24_override. Qed.
