(** WrittenExamples: texts that say the same because of how they are written (C57). *)
From Verif Require Import Base Types Scan ScanFacts SpecText SpecSaid SpecRead SpecCanon CanonScan SpecSaid SpecWritten WrittenProofs Analyzer Resolver Reporter Errors Context ReadOps SaidProofs.

Lemma written_tells d l : written d l -> tells d (noted [] l).
Proof. intro H. exists l. split; [|reflexivity]. apply (written_says d d l H 0). split; [reflexivity|lia]. Qed.

Theorem written_same d1 d2 l1 l2 : written d1 l1 -> written d2 l2 -> noted [] l1 = noted [] l2 -> forall loc rk src c1, parse_context d1 loc rk src = Ok c1 ->
  exists c2, parse_context d2 loc rk src = Ok c2 /\
    forall hist a, answered d2 a (after d2 hist (c_heap c2)) = answered d1 a (after d1 hist (c_heap c1)).
Proof. intros H1 H2 E. apply (same_document d1 d2 (noted [] l1)); [now apply written_tells|]. rewrite E. now apply written_tells. Qed.

Ltac byv := vm_compute; reflexivity.
Ltac text_fact := apply fits_trimmed; byv.
Lemma as_text t t' x : t = t' -> instruction t' x -> instruction t x. Proof. now intros ->. Qed.
Lemma as_value t t' v : t = t' -> value_of t' v -> value_of t v. Proof. now intros ->. Qed.
Lemma as_key t t' k : t = t' -> escaped t' k -> element_key t k. Proof. intros -> H. now right. Qed.
Lemma one_more d0 t x d l : d0 = t ++ nl :: d -> instruction t x -> written d l -> written d0 (x :: l). Proof. intros ->. apply w_more. Qed.

(** a field whose key has a backtick, in two layouts; below a comment *)
Definition loose : text := U "   >  why

> because
  `` a`b``
 :  some value  
  | more".
Definition tight : text := U "> because
```a`b```:some value
|more
".
Definition loose_said : list said :=
  [SaysComment 6 (Some (U "why")); SaysEmpty; SaysComment 2 (Some (U "because")); SaysField (U "a`b") (Some (U "some value")); SaysContinuation false (Some (U "more"))].
Definition tight_said : list said := [SaysComment 2 (Some (U "because")); SaysField (U "a`b") (Some (U "some value")); SaysContinuation false (Some (U "more"))].

Lemma no_ticks n : 2 <= n -> ~ has (run (U "`") n) (U "a`b").
Proof.
  intros Hn (x & y & E). destruct n as [|[|n]]; [lia|lia|]. assert (run (U "`") (S (S n)) = 96%N :: 96%N :: run (U "`") n) as K by reflexivity. rewrite K in E.
  assert (U "a`b" = [97%N; 96%N; 98%N]) as K' by byv. rewrite K' in E. clear K K'. destruct x as [|? [|? [|? x]]]; cbn in E; try discriminate. destruct x; discriminate.
Qed.
Lemma key_loose : element_key (U "`` a`b``") (U "a`b").
Proof.
  apply (as_key _ (run (U "`") 2 ++ U " " ++ U "a`b" ++ [] ++ run (U "`") 2)); [byv|].
  apply (in_ticks 2 (U " ") (U "a`b") []); [lia|byv|text_fact|byv|apply no_ticks; lia|discriminate].
Qed.
Lemma key_tight : element_key (U "```a`b```") (U "a`b").
Proof.
  apply (as_key _ (run (U "`") 3 ++ [] ++ U "a`b" ++ [] ++ run (U "`") 3)); [byv|].
  apply (in_ticks 3 [] (U "a`b") []); [lia|byv|text_fact|byv|apply no_ticks; lia|]. intros _ (r & E). vm_compute in E. discriminate E.
Qed.
Lemma because : instruction (U "> because") (SaysComment 2 (Some (U "because"))).
Proof. apply (as_text _ ([] ++ U ">" ++ U " " ++ U "because" ++ [])); [byv|]. apply (in_comment [] (U " ") (U "because") []); [byv|byv|text_fact|byv]. Qed.
Lemma loose_written : written loose loose_said.
Proof.
  apply (one_more _ (U "   >  why") _ (U "
> because
  `` a`b``
 :  some value  
  | more")); [byv| |].
  { apply (as_text _ (U "   " ++ U ">" ++ U "  " ++ U "why" ++ [])); [byv|]. apply (in_comment (U "   ") (U "  ") (U "why") []); [byv|byv|text_fact|byv]. }
  apply (one_more _ [] _ (U "> because
  `` a`b``
 :  some value  
  | more")); [byv|constructor; byv|].
  apply (one_more _ (U "> because") _ (U "  `` a`b``
 :  some value  
  | more")); [byv|exact because|].
  apply (one_more _ (U "  `` a`b``
 :  some value  ") _ (U "  | more")); [byv| |].
  { apply (as_text _ (U "  " ++ U "`` a`b``" ++ U "
 " ++ U ":" ++ U "  some value  ")); [byv|]. apply in_field; [byv|exact key_loose|byv|].
    apply (as_value _ (U "  " ++ U "some value" ++ U "  ")); [byv|]. apply a_value; [byv|text_fact|byv]. }
  apply w_last; [discriminate|]. apply (as_text _ (U "  " ++ U "|" ++ U " more")); [byv|]. apply in_direct; [byv|]. apply (as_value _ (U " " ++ U "more" ++ [])); [byv|]. apply a_value; [byv|text_fact|byv].
Qed.
Lemma tight_written : written tight tight_said.
Proof.
  apply (one_more _ (U "> because") _ (U "```a`b```:some value
|more
")); [byv|exact because|].
  apply (one_more _ (U "```a`b```:some value") _ (U "|more
")); [byv| |].
  { apply (as_text _ ([] ++ U "```a`b```" ++ [] ++ U ":" ++ U "some value")); [byv|]. apply in_field; [byv|exact key_tight|byv|].
    apply (as_value _ ([] ++ U "some value" ++ [])); [byv|]. apply a_value; [byv|text_fact|byv]. }
  apply (one_more _ (U "|more") _ []); [byv| |constructor]. apply (as_text _ ([] ++ U "|" ++ U "more")); [byv|]. apply in_direct; [byv|]. apply (as_value _ ([] ++ U "more" ++ [])); [byv|]. apply a_value; [byv|text_fact|byv].
Qed.
Lemma loose_tight : written loose loose_said /\ written tight tight_said /\ noted [] loose_said = noted [] tight_said.
Proof. split; [exact loose_written|]. split; [exact tight_written|byv]. Qed.
