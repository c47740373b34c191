(** Property theorems: programs for documents with other keys and values (C61), and with other line endings (C59).
    Specification: [SpecRename], [SpecRenamed], [SpecProgram], [SpecSaid], [SpecEndings]. *)
From Verif Require Import Base Types Messages SpecSaid SpecRename SpecEndings Reporter Errors Context Elements Session Faults SpecQuery ReadOps CrlfDocs RenameDocs SpecProgram SpecRenamed RenamedDocs.

(** * C61 *)

(** If a document is renamed, a program with the keys renamed in the same way has the same outcome. *)
Theorem C61_programs : forall r q o, renaming r -> renaming q -> observation o -> forall L1 L2, told_as r o L1 = told_as q o L2 -> forall d1 d2, tells d1 L1 -> tells d2 L2 ->
  forall loc1 rk1 src1 c1, parse_context d1 loc1 rk1 src1 = Ok c1 -> forall loc2 rk2 src2, exists c2, parse_context d2 loc2 rk2 src2 = Ok c2 /\
    forall A A' (R : A -> A' -> Prop) m m', paired r q o R m m' -> forall i, outcomes r q c1 c2 R (snd (m (opened c1 i))) (snd (m' (opened c2 i))).
Proof. exact paired_programs. Qed.
Print Assumptions C61_programs.

Example C61_tours : paired next_letters same_text same_text toured ship_tour firm_tour.
Proof. exact tours. Qed.
Example C61_toured : parse_context ship en TextReporter None = Ok (context_of ship) /\ parse_context firm en TextReporter None = Ok (context_of firm) /\
  snd (ship_tour (opened (context_of ship) None)) = Ok ([Some (U "1"); Some (U "2")], Some (U "onagain"), Some (U "Frank"), FMissing (Missing MKElement (Some (U "Cat")) (PObject 0))) /\
  snd (firm_tour (opened (context_of firm) None)) = Ok ([Some (U "1"); Some (U "2")], Some (U "onagain"), Some (U "Gsbol"), FMissing (Missing MKElement (Some (U "Dbu")) (PObject 0))).
Proof. exact toured_both. Qed.

(** * C59 *)

(** A program that does not look at carriage returns in values has the same outcome with carriage returns
    before the line feeds. *)
Theorem C59_programs : forall t loc1 rk1 src1 c1, parse_context t loc1 rk1 src1 = Ok c1 -> forall loc2 rk2 src2, exists c2, parse_context (crlf t) loc2 rk2 src2 = Ok c2 /\
  forall A A' (R : A -> A' -> Prop) m m', paired same_text same_text strip R m m' -> forall i, outcomes same_text same_text c1 c2 R (snd (m (opened c1 i))) (snd (m' (opened c2 i))).
Proof. exact crlf_programs. Qed.
Print Assumptions C59_programs.

Example C59_counting : paired same_text same_text strip (maybe eq) (count_in (U "notes")) (count_in (U "notes")).
Proof. exact counting. Qed.
Example C59_counted : snd (count_in (U "notes") (opened (context_of unix) None)) = Ok (Some 9) /\ snd (count_in (U "notes") (opened (context_of windows) None)) = Ok (Some 9).
Proof. exact counted. Qed.
