(** SessionRun: running concrete sessions (for the examples). *)
From Verif Require Import Base Types Messages Reporter Errors Context Elements SpecTree SpecApi Session.

Fixpoint run_calls (l : list call) (s : st) : st := match l with [] => s | x :: l' => run_calls l' (fst (run_call x s)) end.
Definition callable_b (x : call) (cl : class) : bool :=
  match x with
  | Query _ _ _ _ | ListElements _ _ | ListOf _ _ _ | AssertAllTouched _ _ _ _ | RequireElements _ _ => class_eqb cl CSection
  | Yield _ _ => class_eqb cl CSectionElement || class_eqb cl CElement
  | QueryEntry _ _ _ | ListEntries _ _ | AssertEntriesTouched _ _ _ _ | RequireEntries _ _ => class_eqb cl CFieldset
  | ListItems _ | Values _ _ _ _ => class_eqb cl CList
  | Value _ _ _ _ => class_eqb cl CField || class_eqb cl CEntry || class_eqb cl CItem
  | _ => true
  end.
Lemma class_eqb_true a b : class_eqb a b = true -> a = b. Proof. destruct a, b; cbn; congruence. Qed.
Lemma callable_true x cl : callable_b x cl = true -> callable x cl.
Proof. destruct x; cbn; rewrite ?Bool.orb_true_iff; intros; repeat match goal with H : _ \/ _ |- _ => destruct H end; auto using class_eqb_true. Qed.
Fixpoint good_calls (l : list call) (s : st) : bool :=
  match l with
  | [] => true
  | x :: l' => (Nat.ltb (subject x) (length (s_objs s)) && callable_b x (o_class (oget s (subject x))) && good_calls l' (fst (run_call x s)))%bool
  end.
Lemma good_goes l : forall s, good_calls l s = true -> goes_on s (run_calls l s).
Proof.
  induction l as [|x l IH]; intros s H; cbn [run_calls]; [constructor|]. cbn [good_calls] in H. apply andb_prop in H as [H H3]. apply andb_prop in H as [H1 H2].
  apply (go_call s x); [now apply Nat.ltb_lt|now apply callable_true|now apply IH].
Qed.

Definition ctx_of (inp : text) : ctx :=
  match parse_context inp en TextReporter None with Ok c => c | Raise _ => MkCtx inp en TextReporter None [] [] 0 end.
Definition begin (inp : text) : st := MkSt (ctx_of inp) [start_obj CSection 0].
Definition session (inp : text) (l : list call) : st := run_calls l (begin inp).
Lemma session_reach inp l : good_calls l (begin inp) = true -> reach (ctx_of inp) (session inp l).
Proof. intro H. exists (begin inp). split; [constructor|now apply good_goes]. Qed.

Fixpoint ends_b (fuel : nat) (h : heap) (e : nat) : bool :=
  match fuel with
  | O => false
  | S f => match n_mirror (hget h e) with Some m => ends_b f h m | None => match n_extend (hget h e) with Some t => ends_b f h t | None => true end end
  end.
Lemma ends_true fuel : forall h e, ends_b fuel h e = true -> ends h e.
Proof.
  induction fuel as [|f IH]; intros h e; cbn [ends_b]; [discriminate|]. destruct (n_mirror (hget h e)) as [m|] eqn:Em.
  - intro H. apply (en_mirror h e m Em). now apply IH.
  - destruct (n_extend (hget h e)) as [t|] eqn:Et; [|intros _; now apply en_plain]. intro H. apply (en_extend h e t (conj Em Et)). now apply IH.
Qed.
Definition all_end (h : heap) : bool := forallb (ends_b (S (length h)) h) (seq 0 (length h)).
Lemma all_end_true h : all_end h = true -> forall e, ends h e.
Proof.
  intros H e. destruct (Nat.lt_ge_cases e (length h)) as [Hlt|Hge].
  - apply (ends_true (S (length h))). unfold all_end in H. rewrite forallb_forall in H. apply H, in_seq. lia.
  - apply en_plain. unfold plain, hget. rewrite nth_overflow by assumption. split; reflexivity.
Qed.
