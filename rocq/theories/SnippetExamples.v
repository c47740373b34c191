(** SnippetExamples: snippets of concrete errors. *)
From Verif Require Import Base Types Messages Analyzer Reporter Errors Context Elements Session SpecApi SpecText SpecLookup Lookup SpecSelect Faults SpecReport SpecSnippet SessionRun PropAnalysisProofs
  QueryExamples LookupExamples PropErrorsProofs ErrorExamples SnippetFault.

Definition snippet_of {A} (r : res A) : text := match r with Raise (ParseError x) | Raise (ValidationError x) => er_snippet x | _ => [] end.
Definition made (r : res eno_error) : text := match r with Ok x => er_snippet x | Raise _ => [] end.
Definition report_of {A} (r : res A) : eno_error := match r with Raise (ParseError x) => x | _ => MkErr [] [] DOCUMENT_BEGIN end.

Ltac a_line b e := exists b, e; split; [((now left) || (now right))|]; split; [vm_compute; lia|]; split; [vm_compute; lia|]; split; [((now left) || (now right))|];
  split; [intros H; vm_compute in H; intuition discriminate|]; split; vm_compute; reflexivity.
Ltac a_row m := exists m; split; [cbn; auto|vm_compute; reflexivity].

(** a comment before a line that cannot be placed *)
Lemma comment_lost : exists inp x r1 r2, parse_context inp en TextReporter None = Raise (ParseError x) /\
  er_snippet x = text_top en None ++ join [nl] [r1; r2] /\ text_row en 1 [] r1 /\ text_row en 2 (U "- item") r2 /\ is_line inp 0 (U "> remark") /\ is_line inp 1 (U "- item").
Proof.
  set (inp := U "> remark
- item"). exists inp, (report_of (parse_context inp en TextReporter None)), (U "      1 | "), (U " >    2 | - item").
  split; [vm_compute; reflexivity|]. split; [vm_compute; reflexivity|]. split; [a_row 32%N|]. split; [a_row 62%N|]. split; [a_line 0 8|a_line 9 15].
Qed.
(** an element that extends over two lines *)
Lemma line_misplaced : exists inp c v x r1 r2, parse_context inp en TextReporter None = Ok c /\ validation_error c v = Ok x /\
  er_snippet x = text_top en None ++ join [nl] [r1; r2] /\ text_row en 2 (U "b: w") r2 /\ is_line inp 1 (U ": v").
Proof.
  set (inp := U "a
: v
b: w"). exists inp, (ctx_of inp), (BadElement [] 2).
  destruct (validation_error (ctx_of inp) (BadElement [] 2)) as [x|] eqn:E; [|vm_compute in E; discriminate]. exists x, (U "      1 | a" ++ [nl] ++ U ": v"), (U " >    2 | b: w").
  split; [vm_compute; reflexivity|]. split; [reflexivity|]. vm_compute in E. injection E as <-. split; [vm_compute; reflexivity|]. split; [a_row 62%N|a_line 2 5].
Qed.
(** a multiline field that begins on the last line *)
Lemma line_invented : exists inp x r1 r2, parse_context inp en TextReporter None = Raise (ParseError x) /\
  er_snippet x = text_top en None ++ join [nl] [r1; r2] /\ text_row en 2 [] r2 /\ forall t, ~ is_line inp 1 t.
Proof.
  set (inp := U "-- key"). exists inp, (report_of (parse_context inp en TextReporter None)), (U " >    1 | -- key"), (U " *    2 | ").
  split; [vm_compute; reflexivity|]. split; [vm_compute; reflexivity|]. split; [a_row 42%N|]. intros t (b & e & _ & H1 & H2 & _ & _ & H3 & _).
  assert (length inp = 6) as El by (vm_compute; reflexivity). rewrite El in H2. do 7 (destruct b as [|b]; [vm_compute in H3; discriminate|]). lia.
Qed.

(** the snippets of a document with errors of each kind *)
Example bad_snippet : snippet_of (parse_context bad_doc en TextReporter None) = U "   Line | Content
      1 | a: b
      2 | c: d
 >    3 | - x".
Proof. vm_compute. reflexivity. Qed.
Example l_snippet : made (validation_error (ctx_of l_doc) (BadKey [] 1)) = U "   Line | Content
      1 | > for the document
      2 | 
 >    3 | title: x
      4 | | y
      5 | list:
   ...".
Proof. vm_compute. reflexivity. Qed.
(** a field with a comment, in the terminal *)
Definition in_style (n : nat) (s : text) : text := style n ++ s ++ style 0.
Definition terminal_doc : text := U "> note
key: value
list:
- item".
Example terminal_single : single_lines terminal_doc (c_heap (ctx_of terminal_doc)).
Proof.
  assert (forallb (fun n => forallb (fun k => negb (N.eqb k nl)) (at_range terminal_doc (line_range (n_ranges n)))) (tl (c_heap (ctx_of terminal_doc))) = true) as H by (vm_compute; reflexivity).
  remember (c_heap (ctx_of terminal_doc)) as h eqn:E. clear E. intros x Hx Hin. rewrite forallb_forall in H. destruct h as [|d h]; [cbn in Hx; lia|]. destruct x as [|x]; [lia|].
  assert (In (hget (d :: h) (S x)) h) as Hn by (cbn; apply nth_In; cbn in Hx; lia).
  specialize (H _ Hn). rewrite forallb_forall in H. specialize (H _ Hin). now rewrite N.eqb_refl in H.
Qed.
Example terminal_row_example : match parse_context terminal_doc en TerminalReporter (Some (U "file")) with
  | Ok c => made (validation_error c (BadKey [] 1))
  | Raise _ => []
  end = style 30 ++ in_style 101 (U " >      ") ++ U " " ++ in_style 1 (U "file") ++ [nl] ++ join [nl] [
    in_style 40 (U "      1 ") ++ U " " ++ in_style 90 (U "> note");
    style 30 ++ in_style 101 (U " >    2 ") ++ U " " ++ style 1 ++ in_style 97 (U "key") ++ in_style 37 (U ":") ++ U " " ++ style 2 ++ in_style 37 (U "value");
    in_style 40 (U "      3 ") ++ U " " ++ style 1 ++ in_style 97 (U "list") ++ in_style 37 (U ":");
    in_style 40 (U "      4 ") ++ U " " ++ in_style 37 (U "-") ++ U " " ++ style 2 ++ in_style 37 (U "item")].
Proof. vm_compute. reflexivity. Qed.
