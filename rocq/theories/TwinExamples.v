(** TwinExamples: a program and two layouts of a document (C58). *)
From Verif Require Import Base Types Messages Reporter Errors Context Elements Session Faults SpecQuery SpecSaid SaidExamples SpecProgram.

Definition the (f : found) : nat := match f with FObj o => o | _ => 0 end.
Definition named (k : text) : option text := Some k.
(** reads a copied field, a comment and a field that is asked for as a list, and prints the section *)
Definition sample_program : sM (option text * option text * option found * text) :=
  let! s := query (Some KSection) 0 (named (U "home")) None in
  let! x := query (Some KField) (the s) (named (U "address")) None in
  let! v := value_of (the x) string_loader true in
  let! n := query None 0 (named (U "name")) None in
  let! k := comment_of (the n) string_loader true in
  let! bad := attempt (query (Some KList) 0 (named (U "name")) None) in
  let! p := print_of (the s) in
  ret (v, k, bad, p).
(** the list, then the field as a list *)
Definition failing_program : sM nat :=
  let! l := query (Some KList) 0 (named (U "colours")) None in
  let! n := list_length (the l) in
  let! x := query (Some KList) 0 (named (U "name")) None in
  ret n.
Lemma samples_are_programs : program sample_program /\ program failing_program.
Proof. split; unfold sample_program, failing_program; repeat (apply p_bind; [try constructor; try constructor|intro]); constructor. Qed.

Definition document_of (inp : text) (loc : locale) (rk : reporter_kind) : ctx :=
  match parse_context inp loc rk None with Ok c => c | Raise _ => MkCtx inp loc rk None [] [] 0 end.
Definition plain_ctx : ctx := document_of plain_layout en TextReporter.
Definition odd_ctx : ctx := document_of odd_layout de HtmlReporter.
Definition not_a_list : complaint := OtherKind (named (U "name")) 1 Q_expected_list.
Definition sample_result : option text * option text * option found * text := (Some (U "Elm"), Some (U "who"), None, U "<class Section key=""home"" elements=3>").
Lemma twin_sample : parse_context plain_layout en TextReporter None = Ok plain_ctx /\ parse_context odd_layout de HtmlReporter None = Ok odd_ctx /\
  snd (sample_program (opened plain_ctx None)) = Ok sample_result /\ snd (sample_program (opened odd_ctx None)) = Ok sample_result /\
  snd (failing_program (opened plain_ctx None)) = raised (validation_error plain_ctx not_a_list) /\
  snd (failing_program (opened odd_ctx None)) = raised (validation_error odd_ctx not_a_list).
Proof. split; [vm_compute; reflexivity|]. split; [vm_compute; reflexivity|]. split; [vm_compute; reflexivity|]. split; [vm_compute; reflexivity|]. split; vm_compute; reflexivity. Qed.
Lemma twin_texts : match validation_error plain_ctx not_a_list, validation_error (document_of odd_layout en HtmlReporter) not_a_list with
  | Ok x, Ok y => er_text x = er_text y /\ er_snippet x <> er_snippet y
  | _, _ => False
  end.
Proof. vm_compute. split; [reflexivity|discriminate]. Qed.
