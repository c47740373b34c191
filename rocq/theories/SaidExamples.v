(** SaidExamples: two texts that say the same (C57). *)
From Verif Require Import Base Types Analyzer Grammar Scan SpecText SpecSaid Resolver Reporter Errors Context ReadOps Messages.

Fixpoint reading (fuel : nat) (inp : text) (i : nat) : option (list said) :=
  match fuel with
  | O => None
  | S f =>
      if Nat.leb (length inp) i then Some []
      else match scan i (skipn i inp) with
           | Some (TMultiline op k, e) =>
               match find_closing (at_range inp op) (at_range inp k) e (skipn e inp) with
               | Some (stop, (_, _, e2)) => option_map (cons (SaysMultiline (at_range inp k) (if Nat.eqb stop e then None else Some (slice inp (S e) stop)))) (reading f inp (S e2))
               | None => None
               end
           | Some (t, e) => match meaning inp i t with Some x => option_map (cons x) (reading f inp (S e)) | None => None end
           | None => None
           end
  end.
Lemma reading_says f inp : forall i l, reading f inp i = Some l -> says inp i l.
Proof.
  induction f as [|f IH]; intros i l; cbn [reading]; [discriminate|]. destruct (Nat.leb_spec (length inp) i) as [Hi|Hi]; [intros [= <-]; now constructor|].
  destruct (scan i (skipn i inp)) as [[t e]|] eqn:Es; [|discriminate]. destruct t as [at_|op v|op v|op v|op v|op k|op k t|k op v|k op v|k op t].
  6: { destruct (find_closing _ _ _ _) as [[stop [[o2 k2] e2]]|] eqn:Ec; [|discriminate]. destruct (reading f inp (S e2)) as [r|] eqn:Er; [|discriminate]. intros [= <-]. eapply sy_multiline; eauto. }
  all: destruct (meaning _ _ _) as [x|] eqn:Em; [|discriminate]; destruct (reading f inp (S e)) as [r|] eqn:Er; [|discriminate]; intros [= <-]; eapply sy_line; eauto.
Qed.
Lemma tells_by f inp l L : reading f inp 0 = Some l -> noted [] l = L -> tells inp L.
Proof. intros H <-. exists l. split; [now apply (reading_says f)|reflexivity]. Qed.

Definition plain_layout : text := U "> who
name: Ann Lee
colours:
- red
- blue
# home
address < street
street: Elm
-- note
 as is
-- note
".
Definition odd_layout : text := U "> a remark

   >who
 ``name``   :Ann Lee   

 `colours`
:

  -    red
> detached

-blue
 #home
` address `
<
 street


street
:Elm
  ------ note 
 as is
    ------note   

> the end".

Definition both_tell : list (list (nat * option text) * said) :=
  Eval vm_compute in match reading 40 plain_layout 0 with Some l => noted [] l | None => [] end.

Definition read_as (d : text) : option (res answer) :=
  match parse_context d en HtmlReporter None with Ok c => Some (answered d (AskRaw 0) (c_heap c)) | Raise _ => None end.
Lemma both_layouts : tells plain_layout both_tell /\ tells odd_layout both_tell /\ read_as odd_layout = read_as plain_layout /\ read_as plain_layout <> None.
Proof.
  split; [|split; [|split]].
  - apply (tells_by 40 plain_layout (match reading 40 plain_layout 0 with Some l => l | None => [] end)); vm_compute; reflexivity.
  - apply (tells_by 40 odd_layout (match reading 40 odd_layout 0 with Some l => l | None => [] end)); vm_compute; reflexivity.
  - vm_compute. reflexivity.
  - vm_compute. discriminate.
Qed.
