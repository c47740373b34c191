(** Property theorems: line endings (C59) and texts the grammar fails on (C57).  Specification: [SpecEndings],
    [SpecReturns], [SpecBroken], [SpecSaid]. *)
From Verif Require Import Base Types Analyzer SpecSaid SpecBroken SpecEndings CrlfProofs Resolver Reporter Errors Context ReadOps Messages ParseOutcome SpecReturns BrokenLoop CrlfDocs.

(** * C57 *)

(** Every text, accepted or not, has exactly one list of instructions: complete, or up to the first place
    where the line grammar fails. *)
Theorem C57_every_text : forall d, (exists L, tells d L /\ (forall L', tells d L' -> L' = L) /\ forall L' b, ~ tells_until d L' b) \/
  (exists L b, tells_until d L b /\ (forall L' b', tells_until d L' b' -> L' = L /\ b' = b) /\ forall L', ~ tells d L').
Proof. exact every_text. Qed.
Print Assumptions C57_every_text.

(** Texts with the same instructions up to such a place are rejected for the same reason. *)
Theorem C57_broken_faults : forall d1 d2 L b, tells_until d1 L b -> tells_until d2 L b -> exists p h meta lc, fault d1 p h meta lc /\
  exists q h' meta' lc', fault d2 q h' meta' lc' /\ same_complaint p q.
Proof. exact broken_faults. Qed.
Print Assumptions C57_broken_faults.

Example C57_never_closed : exists L, L <> [] /\ tells_until open_tight L NeverClosed /\ tells_until open_loose L NeverClosed.
Proof. exact open_tell. Qed.

(** * C59 *)

(** With a carriage return before every line feed a text has the same instructions and comments, but multiline
    values keep the carriage returns. *)
Theorem C59_instructions : forall t L', tells (crlf t) L' <-> exists L, tells t L /\ L' = map (fun cx => (fst cx, with_returns (snd cx))) L.
Proof. exact tells_crlf. Qed.
Print Assumptions C59_instructions.

(** It is accepted if and only if the text without them is; every answer is the same apart from carriage
    returns in values, at any time. *)
Theorem C59_same_document : forall t loc rk src c1, parse_context t loc rk src = Ok c1 -> exists c2, parse_context (crlf t) loc rk src = Ok c2 /\
  forall hist a, same_but_returns a (answered t a (after t hist (c_heap c1))) (answered (crlf t) a (after (crlf t) hist (c_heap c2))).
Proof. exact crlf_document. Qed.
Print Assumptions C59_same_document.

Theorem C59_accepted : forall t loc rk src c2, parse_context (crlf t) loc rk src = Ok c2 -> exists c1, parse_context t loc rk src = Ok c1.
Proof. exact crlf_accepted. Qed.
Print Assumptions C59_accepted.

(** Without multiline values every answer is exactly the same. *)
Theorem C59_exact : forall t L, tells t L -> Forall (fun cx => no_block (snd cx)) L -> forall loc rk src c1, parse_context t loc rk src = Ok c1 ->
  exists c2, parse_context (crlf t) loc rk src = Ok c2 /\
    forall hist a, answered (crlf t) a (after (crlf t) hist (c_heap c2)) = answered t a (after t hist (c_heap c1)).
Proof. exact crlf_exact. Qed.
Print Assumptions C59_exact.

(** A text that is rejected is rejected for the same reason with carriage returns. *)
Theorem C59_same_faults : forall t p h meta lc, fault t p h meta lc -> exists q h' meta' lc', fault (crlf t) q h' meta' lc' /\ same_complaint p q.
Proof. exact crlf_faults. Qed.
Print Assumptions C59_same_faults.

(** the value of a multiline field ends with a carriage return *)
Example C59_windows : windows = crlf unix /\
  asked unix (AskValue 1) = Some (Ok (AnsText (Some (U "Ann")))) /\ asked windows (AskValue 1) = Some (Ok (AnsText (Some (U "Ann")))) /\
  asked unix (AskComment 1) = Some (Ok (AnsText (Some (U "by hand")))) /\ asked windows (AskComment 1) = Some (Ok (AnsText (Some (U "by hand")))) /\
  asked unix (AskValue 4) = Some (Ok (AnsText (Some (U "one" ++ [nl] ++ U "  two")))) /\
  asked windows (AskValue 4) = Some (Ok (AnsText (Some (U "one" ++ [cr; nl] ++ U "  two" ++ [cr])))).
Proof. exact windows_read. Qed.
(** so the answers are not always exactly the same *)
Example C59_returns_matter : exists t loc rk src c1 c2 a, parse_context t loc rk src = Ok c1 /\ parse_context (crlf t) loc rk src = Ok c2 /\
  answered (crlf t) a (c_heap c2) <> answered t a (c_heap c1).
Proof. exact windows_differ. Qed.
Example C59_short : tells short short_said /\ Forall (fun cx => no_block (snd cx)) short_said /\ short_said <> [] /\ crlf short <> short /\
  asked (crlf short) (AskRaw 0) = asked short (AskRaw 0) /\ asked short (AskRaw 0) <> None.
Proof. exact short_read. Qed.
