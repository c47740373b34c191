(** Property theorems: layout does not matter (C57).  Specification: [SpecSaid], [SpecWritten]. *)
From Verif Require Import Base Types Analyzer Resolver SpecSaid Reporter Errors Context ReadOps Messages ParseOutcome SpecWritten SaidProofs SaidExamples WrittenExamples.

(** * C57 *)

(** Texts with the same instructions, apart from layout, escaping, blank lines and detached comments: one is
    accepted if the other is, and then every answer is the same, at any time. *)
Theorem C57_same_document : forall d1 d2 L, tells d1 L -> tells d2 L -> forall loc rk src c1, parse_context d1 loc rk src = Ok c1 ->
  exists c2, parse_context d2 loc rk src = Ok c2 /\
    forall hist a, answered d2 a (after d2 hist (c_heap c2)) = answered d1 a (after d1 hist (c_heap c1)).
Proof. exact same_document. Qed.
Print Assumptions C57_same_document.

(** If one is rejected, the other is rejected for the same reason. *)
Theorem C57_same_faults : forall d1 d2 L, tells d1 L -> tells d2 L -> forall p h meta lc, fault d1 p h meta lc ->
  exists q h' meta' lc', fault d2 q h' meta' lc' /\ same_complaint p q.
Proof. exact same_faults. Qed.
Print Assumptions C57_same_faults.

(** Every document has exactly one such list of instructions. *)
Theorem C57_every_document : forall d loc rk src c, parse_context d loc rk src = Ok c ->
  exists L, tells d L /\ forall L', tells d L' -> L' = L.
Proof. exact every_document. Qed.
Print Assumptions C57_every_document.

(** The instructions of a text written down in any of the ways of [SpecWritten] are the intended ones. *)
Theorem C57_written : forall d l, written d l -> tells d (noted [] l).
Proof. exact written_tells. Qed.
Print Assumptions C57_written.

Theorem C57_written_same : forall d1 d2 l1 l2, written d1 l1 -> written d2 l2 -> noted [] l1 = noted [] l2 ->
  forall loc rk src c1, parse_context d1 loc rk src = Ok c1 ->
  exists c2, parse_context d2 loc rk src = Ok c2 /\
    forall hist a, answered d2 a (after d2 hist (c_heap c2)) = answered d1 a (after d1 hist (c_heap c1)).
Proof. exact written_same. Qed.
Print Assumptions C57_written_same.

Example C57_loose_and_tight : written loose loose_said /\ written tight tight_said /\ noted [] loose_said = noted [] tight_said.
Proof. exact loose_tight. Qed.
Example C57_loose_text : loose = U "   >  why

> because
  `` a`b``
 :  some value  
  | more" /\ tight = U "> because
```a`b```:some value
|more
".
Proof. split; vm_compute; reflexivity. Qed.

(** Two layouts of the same document. *)
Example C57_layouts : tells plain_layout both_tell /\ tells odd_layout both_tell /\
  read_as odd_layout = read_as plain_layout /\ read_as plain_layout <> None.
Proof. exact both_layouts. Qed.
Example C57_layout_text : plain_layout = U "> who
name: Ann Lee
colours:
- red
- blue
# home
address < street
street: Elm
-- note
 as is
-- note
" /\ odd_layout = U "> a remark

   >who
 ``name``   :Ann Lee   

 `colours`
:

  -    red
> detached

-blue
 #home
` address `
<
 street


street
:Elm
  ------ note 
 as is
    ------note   

> the end".
Proof. split; vm_compute; reflexivity. Qed.
