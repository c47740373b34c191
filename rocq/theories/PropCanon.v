(** PropCanon: parsing what was written gives back what was written (C14).  [reach c s]: [s] is a state that
    some sequence of API calls brings about after the text was parsed into [c]. *)
From Verif Require Import Base Types Messages Reporter Errors Context Elements SpecCanon SpecQuery Session SessionRun CanonProofs CanonExamples.

(** Canonical texts parse, and raw() of the document is, in every state, the document that was written. *)
Theorem C14_round_trip : forall x loc rk src, document x ->
  exists c, parse_context (canonical x) loc rk src = Ok c /\
    (reach c (MkSt c [start_obj CSection 0]) /\ names (MkSt c [start_obj CSection 0]) 0 CSection 0) /\
    forall s o cl, reach c s -> names s o cl 0 -> snd (raw_of o s) = Ok x.
Proof. exact round_trip. Qed.
Print Assumptions C14_round_trip.

(** Different documents have different texts. *)
Theorem C14_one_text : forall x y, document x -> document y -> canonical x = canonical y -> x = y.
Proof. exact one_text. Qed.
Print Assumptions C14_one_text.

Example C14_sample : document sample /\ canonical sample = text_of sample_lines /\
  parse_context (canonical sample) en TextReporter None = Ok (ctx_of (canonical sample)) /\
  snd (raw_of 0 (begin (canonical sample))) = Ok sample.
Proof. split; [exact sample_document|]. split; [exact sample_text|exact sample_back]. Qed.
Example C14_others : document sample2 /\ canonical sample <> canonical sample2.
Proof. split; [exact sample2_document|]. vm_compute. discriminate. Qed.
(** In front of other elements a section would swallow them: documents keep their sections last. *)
Example C14_order : canonical (RawDocument [RawSection None (U "s") []; RawEmpty None (U "a")]) =
                    canonical (RawDocument [RawSection None (U "s") [RawEmpty None (U "a")]]).
Proof. exact order_matters. Qed.
