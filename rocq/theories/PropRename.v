(** Property theorems: other keys and other values (C60).  Specification: [SpecRename], [SpecSaid], [SpecBroken]. *)
From Verif Require Import Base Types SpecSaid SpecBroken SpecRename SpecEndings Resolver Reporter Errors Context ReadOps Messages ParseOutcome RenameDocs.

(** Two texts whose instructions differ only in the names of the keys, and in what is not observed of the
    values, are read alike: every answer, at any time, has the same names and the same observations. *)
Theorem C60_same_document : forall r q o, renaming r -> renaming q -> observation o -> forall L1 L2, told_as r o L1 = told_as q o L2 ->
  forall d1 d2, tells d1 L1 -> tells d2 L2 -> forall loc rk src c1, parse_context d1 loc rk src = Ok c1 -> exists c2, parse_context d2 loc rk src = Ok c2 /\
  forall hist a, answer_as r o a (answered d1 a (after d1 hist (c_heap c1))) = answer_as q o a (answered d2 a (after d2 hist (c_heap c2))).
Proof. exact renamed_document. Qed.
Print Assumptions C60_same_document.

Theorem C60_accepted : forall r q o L1 L2 d1 d2, renaming r -> renaming q -> observation o -> told_as r o L1 = told_as q o L2 -> tells d1 L1 -> tells d2 L2 ->
  forall loc rk src, (exists c1, parse_context d1 loc rk src = Ok c1) <-> (exists c2, parse_context d2 loc rk src = Ok c2).
Proof. exact renamed_accepted. Qed.
Print Assumptions C60_accepted.

(** They are rejected for the same reason. *)
Theorem C60_same_faults : forall r q o, renaming r -> renaming q -> forall L1 L2, told_as r o L1 = told_as q o L2 ->
  forall d1 d2, tells d1 L1 -> tells d2 L2 -> forall p h meta lc, fault d1 p h meta lc -> exists p' h' meta' lc', fault d2 p' h' meta' lc' /\ same_complaint p p'.
Proof. exact renamed_faults. Qed.
Print Assumptions C60_same_faults.

Theorem C60_broken_faults : forall r q o, renaming r -> renaming q -> forall L1 L2, told_as r o L1 = told_as q o L2 -> forall d1 d2 b, tells_until d1 L1 b -> tells_until d2 L2 b ->
  exists p h meta lc, fault d1 p h meta lc /\ exists p' h' meta' lc', fault d2 p' h' meta' lc' /\ same_complaint p p'.
Proof. exact renamed_broken. Qed.
Print Assumptions C60_broken_faults.

(** There are such names and observations: every letter replaced by the next; everything, the length, all but
    carriage returns, nothing. *)
Example C60_names : renaming same_text /\ renaming next_letters /\ observation same_text /\ observation size /\ observation strip /\ observation nothing.
Proof. exact (conj same_text_renaming (conj next_letters_renaming (conj same_text_observation (conj size_observation (conj strip_observation nothing_observation))))). Qed.
Example C60_ship_firm : tells ship ship_said /\ tells firm firm_said /\ told_as next_letters same_text ship_said = told_as same_text same_text firm_said /\
  asked ship (AskValue 1) = Some (Ok (AnsText (Some (U "onagain")))) /\ asked firm (AskValue 1) = Some (Ok (AnsText (Some (U "onagain")))) /\ asked ship (AskRaw 0) <> None.
Proof. exact ship_firm. Qed.
Example C60_ship_dull : tells ship ship_said /\ tells dull dull_said /\ told_as same_text size ship_said = told_as same_text size dull_said /\
  asked dull (AskValue 1) = Some (Ok (AnsText (Some (U "aabbbbb")))).
Proof. exact ship_dull. Qed.
(** With two keys made one the copy is ambiguous. *)
Example C60_merged_keys : tells two_names two_said /\ tells one_name one_said /\ told_as merged same_text two_said = told_as same_text same_text one_said /\
  asked two_names (AskValue 3) = Some (Ok (AnsText (Some (U "2")))) /\ asked one_name (AskValue 3) = None.
Proof. exact merged_keys. Qed.
