(** PropReportProofs: lemmas behind PropReport. *)
From Verif Require Import Base Types Messages Reporter Errors Context SpecReport ReportProofs.

Lemma context_shown_fun near s a b : (forall j, near j \/ ~ near j) ->
  context_shown near s a -> context_shown near s b -> a = b.
Proof.
  intros Dn [La Ha] [Lb Hb]. apply nth_ext with (d := None) (d' := None); [congruence|].
  intros j Hj. assert (Hs : j < length s) by congruence.
  specialize (Ha j Hs). specialize (Hb j Hs). destruct Ha as (A1 & A2 & A3 & A4), Hb as (B1 & B2 & B3 & B4).
  assert (E : nth_error a j = nth_error b j).
  { destruct (nth_error s j) as [[t|]|] eqn:E.
    - now rewrite (A1 t eq_refl), (B1 t eq_refl).
    - assert (N : ~ tagged s j). { intros [t T]. congruence. }
      destruct (Dn j) as [C|C]; [now rewrite A2, B2|].
      destruct (tagb s (j + 3)) eqn:G.
      + apply tagb_spec in G. now rewrite A3, B3 by auto.
      + apply tagb_false in G. destruct (Nat.eq_dec (S j) (length s)) as [L|L].
        * now rewrite A3, B3 by auto.
        * now rewrite A4, B4 by auto.
    - apply nth_error_None in E. lia. }
  rewrite (nth_error_nth' a None) in E by lia. rewrite (nth_error_nth' b None) in E by lia. congruence.
Qed.

Lemma context_wrong : exists s, (forall k t, nth_error s k = Some (Some t) -> reported t) /\ (exists k, tagged s k) /\
  ~ exists s', complete (length s) s = Ok s' /\ context_shown (close s) s s'.
Proof.
  exists [Some EMPHASIZE; None; None]. split; [|split].
  - intros [|[|[|k]]] t H; cbn in H; try discriminate; [|destruct k; discriminate]. injection H as <-. now left.
  - exists 0, EMPHASIZE. reflexivity.
  - intros (s' & E & _ & H). vm_compute in E. injection E as <-.
    destruct (H 1) as (_ & B & _); [cbn; lia|].
    assert (X : nth_error [Some EMPHASIZE; None; Some OMISSION] 1 = Some (Some DISPLAY)).
    { apply B; [intros [t T]; discriminate|]. exists 0. split; [exists EMPHASIZE; reflexivity|lia]. }
    discriminate.
Qed.

Lemma label_markup : exists inp l1 l2 e1 e2,
  parse_context inp en HtmlReporter (Some l1) = Raise (ParseError e1) /\
  parse_context inp en HtmlReporter (Some l2) = Raise (ParseError e2) /\
  l1 <> [] /\ l2 <> [] /\ markup (er_snippet e1) <> markup (er_snippet e2).
Proof.
  exists (U "- x"), (U "a.eno"), (U "<img src='x' onerror='alert(1)'>.eno").
  eexists. eexists. split; [vm_compute; reflexivity|]. split; [vm_compute; reflexivity|].
  split; [discriminate|]. split; [discriminate|]. vm_compute. discriminate.
Qed.
