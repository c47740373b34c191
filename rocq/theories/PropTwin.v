(** Property theorems: programs see the same, whatever the layout, the locale and the reporter (C58).
    Specification: [SpecSaid], [SpecProgram]. *)
From Verif Require Import Base Types Messages Reporter Errors Context Elements Session Faults SpecQuery SpecSaid SaidExamples SpecProgram TwinProofs TwinExamples.

(** * C58 *)

(** Every program has the same outcome for texts that say the same. *)
Theorem C58_programs : forall d1 d2 L, tells d1 L -> tells d2 L -> forall loc1 rk1 src1 c1, parse_context d1 loc1 rk1 src1 = Ok c1 ->
  forall loc2 rk2 src2, exists c2, parse_context d2 loc2 rk2 src2 = Ok c2 /\
    forall A (m : sM A), program m -> forall i, same_outcome c1 c2 (snd (m (opened c1 i))) (snd (m (opened c2 i))).
Proof. exact same_programs. Qed.
Print Assumptions C58_programs.

(** In particular for one text under other locales, reporters and source labels. *)
Theorem C58_labels : forall inp loc rk src c, parse_context inp loc rk src = Ok c -> forall loc' rk' src',
  exists c', parse_context inp loc' rk' src' = Ok c' /\
    forall A (m : sM A), program m -> forall i, same_outcome c c' (snd (m (opened c i))) (snd (m (opened c' i))).
Proof. exact other_labels. Qed.
Print Assumptions C58_labels.

(** The messages of the same complaint are the same in the same locale. *)
Theorem C58_messages : forall d1 d2 L, tells d1 L -> tells d2 L -> forall loc rk1 src1 c1 rk2 src2 c2,
  parse_context d1 loc rk1 src1 = Ok c1 -> parse_context d2 loc rk2 src2 = Ok c2 ->
  forall v x y, validation_error c1 v = Ok x -> validation_error c2 v = Ok y -> er_text x = er_text y.
Proof. exact same_messages. Qed.
Print Assumptions C58_messages.

Example C58_sample_programs : program sample_program /\ program failing_program.
Proof. exact samples_are_programs. Qed.
Example C58_sample : parse_context plain_layout en TextReporter None = Ok plain_ctx /\ parse_context odd_layout de HtmlReporter None = Ok odd_ctx /\
  snd (sample_program (opened plain_ctx None)) = Ok sample_result /\ snd (sample_program (opened odd_ctx None)) = Ok sample_result /\
  snd (failing_program (opened plain_ctx None)) = raised (validation_error plain_ctx not_a_list) /\
  snd (failing_program (opened odd_ctx None)) = raised (validation_error odd_ctx not_a_list).
Proof. exact twin_sample. Qed.
Example C58_sample_message : match validation_error plain_ctx not_a_list, validation_error (document_of odd_layout en HtmlReporter) not_a_list with
  | Ok x, Ok y => er_text x = er_text y /\ er_snippet x <> er_snippet y
  | _, _ => False
  end.
Proof. exact twin_texts. Qed.
