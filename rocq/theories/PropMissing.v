(** Property theorems: missing elements read as something (C30).  Specification: [SpecQuery]. *)
From Verif Require Import Base Types Messages Reporter Errors Context Elements SpecApi SpecQuery Session SessionRun QueryExamples MissingRead.

(** A missing element read as a field, list, fieldset or section is reported as one, to the section it was asked from;
    below a missing element the outermost one stays. *)
Theorem C30_read_as : forall s m key what k,
  (forall o req, snd (query what o key req s) = Ok (FMissing m) -> outermost (missing_to_kind k m) = (missing_kind (Some k), key, o)) /\
  (forall m0 req, snd (missing_query what m0 key req s) = Ok (FMissing m) -> outermost (missing_to_kind k m) = outermost m0).
Proof. exact missing_kinds. Qed.
Print Assumptions C30_read_as.

Example C30_read_chain : exists m m', snd (query None 0 (key_named "gone") None (begin q_doc)) = Ok (FMissing m) /\
  outermost (missing_to_kind KSection m) = (MKSection, key_named "gone", 0) /\
  snd (missing_query None (missing_to_kind KSection m) (key_named "deeper") None (begin q_doc)) = Ok (FMissing m') /\
  outermost (missing_to_kind KList m') = (MKSection, key_named "gone", 0).
Proof. exact gone_list. Qed.
