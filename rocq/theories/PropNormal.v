(** PropNormal: every document in which no section takes over sections by copying has a canonical text,
    of which raw() says the same (C50).  [reach c s]: [s] is a state that some sequence of API calls brings about after the text
    was parsed into [c]. *)
From Verif Require Import Base Types Messages Reporter Errors Context Elements SpecTree SpecApi SpecRaw SpecLoad SpecNormal SpecCanon SpecQuery Session SessionRun NormalProofs NormalExamples.

(** What raw() gives for a parsed document is one of the documents that can be written canonically. *)
Theorem C50_documents : forall inp loc rk src c, parse_context inp loc rk src = Ok c -> takes_no_sections (c_heap c) ->
  forall s o cl x, reach c s -> names s o cl 0 -> snd (raw_of o s) = Ok x -> document x.
Proof. intros inp loc rk src c H. exact (raw_document H). Qed.
Print Assumptions C50_documents.

(** Written canonically and parsed again, raw() gives the same, in every state. *)
Theorem C50_rewritten : forall inp loc rk src c, parse_context inp loc rk src = Ok c -> takes_no_sections (c_heap c) ->
  forall s o cl x, reach c s -> names s o cl 0 -> snd (raw_of o s) = Ok x ->
  forall loc' rk' src', exists c', parse_context (canonical x) loc' rk' src' = Ok c' /\
    forall s' o' cl', reach c' s' -> names s' o' cl' 0 -> snd (raw_of o' s') = Ok x.
Proof. intros inp loc rk src c H. exact (rewritten H). Qed.
Print Assumptions C50_rewritten.

(** Documents without copies of sections are among them. *)
Theorem C50_without_copies : forall inp loc rk src c, parse_context inp loc rk src = Ok c -> no_section_copies (c_heap c) -> takes_no_sections (c_heap c).
Proof. intros inp loc rk src c H. exact (without_copies H). Qed.
Print Assumptions C50_without_copies.

(** For these raw() succeeds unless an instruction has a comment that is a single line without text. *)
Theorem C50_can_be_rewritten : forall inp loc rk src c, parse_context inp loc rk src = Ok c ->
  forall s o cl, no_section_copies (c_heap c) -> (forall i, hollow_comment (c_heap c) i = false) -> reach c s -> names s o cl 0 -> exists x, snd (raw_of o s) = Ok x.
Proof. intros inp loc rk src c H. exact (can_rewrite H). Qed.
Print Assumptions C50_can_be_rewritten.

(** With copies of sections it can fail: the sections a section takes over stand in front of its own
    elements in raw(). *)
Theorem C50_section_copies_refuted : exists inp c x c' y,
  parse_context inp en TextReporter None = Ok c /\ snd (raw_of 0 (MkSt c [start_obj CSection 0])) = Ok x /\
  parse_context (canonical x) en TextReporter None = Ok c' /\ snd (raw_of 0 (MkSt c' [start_obj CSection 0])) = Ok y /\ x <> y.
Proof.
  exists swallowed, (ctx_of swallowed), swallowed_raw, (ctx_of (canonical swallowed_raw)). eexists.
  split; [exact (proj1 swallowed_described)|]. split; [exact (proj2 swallowed_described)|].
  split; [exact (proj1 swallowed_back)|]. split; [exact (proj2 swallowed_back)|]. discriminate.
Qed.
Print Assumptions C50_section_copies_refuted.

Example C50_sample : parse_context mixed en TextReporter None = Ok (ctx_of mixed) /\
  takes_no_sections (c_heap (ctx_of mixed)) /\
  reach (ctx_of mixed) (begin mixed) /\ names (begin mixed) 0 CSection 0 /\
  snd (raw_of 0 (begin mixed)) = Ok mixed_raw /\ canonical mixed_raw = text_of mixed_lines /\
  snd (raw_of 0 (begin (text_of mixed_lines))) = Ok mixed_raw.
Proof.
  split; [exact (proj1 mixed_parsed)|]. split; [exact (proj2 mixed_parsed)|]. split; [exact (proj2 (begins mixed))|]. split; [exact (proj1 (begins mixed))|].
  split; [exact (proj1 mixed_described)|]. split; [exact (proj2 mixed_described)|exact mixed_back].
Qed.
