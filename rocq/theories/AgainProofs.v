(** AgainProofs: reading through objects, again and elsewhere (C15, C16, C18). *)
From Verif Require Import Base Types Messages Reporter Errors Context Elements SpecTree SpecResolve SpecRead SpecApi SpecQuery SpecLinks SpecLoad Session SessionRun
  SessionInv ApiInv ApiState ApiDoc QueryProofs PropQueryProofs LoadProofs SpecWhole WholeProofs Reads ReadOps PropReadProofs PropCopiesProofs CopiesProofs.

Section Parsed.
  Context {inp : text} {loc : locale} {rk : reporter_kind} {src : option text} {c : ctx} (HP : parse_context inp loc rk src = Ok c).

  Lemma comment_text_fun h e v w : comment_text h e v -> comment_text h e w -> v = w.
  Proof. unfold comment_text. destruct (n_comments (hget h e)) as [ls|]; [apply block_text_fun|congruence]. Qed.

  Lemma read_again s s' o o' cl cl' e : reach c s -> reach c s' -> names s o cl e -> names s' o' cl' e -> forall A (ld : loader A) required,
    (has_value cl -> has_value cl' -> snd (value_of o' ld required s') = snd (value_of o ld required s)) /\
    snd (comment_of o' ld required s') = snd (comment_of o ld required s) /\
    snd (key_with o' ld s') = snd (key_with o ld s) /\ snd (string_key o' s') = snd (string_key o s).
  Proof.
    intros Hs Hs' HN HN' A ld required. split; [|split].
    - intros Hv Hv'. destruct (value_loaded HP s o cl e Hs HN Hv) as (v & V & E). destruct (value_loaded HP s' o' cl' e Hs' HN' Hv') as (v' & V' & E').
      now rewrite E, E', (value_text_one HP e v v' V V').
    - destruct (comment_loaded HP s o cl e Hs HN) as (v & V & E). destruct (comment_loaded HP s' o' cl' e Hs' HN') as (v' & V' & E').
      now rewrite E, E', (comment_text_fun _ e v v' V V').
    - destruct (key_loaded HP s o cl e Hs HN) as (E1 & E2). destruct (key_loaded HP s' o' cl' e Hs' HN') as (E1' & E2'). now rewrite E1, E2, E1', E2'.
  Qed.

  Lemma in_turn_fun A (l : list (res A)) x y : in_turn l x -> in_turn l y -> x = y.
  Proof.
    intro H. revert y. induction H as [|a l ys H IH|a l e H IH|e l]; intros y Hy; inversion Hy as [|? ? zs G|? ? f G|]; subst; try reflexivity.
    - specialize (IH _ G). congruence.
    - specialize (IH _ G). congruence.
    - specialize (IH _ G). congruence.
    - specialize (IH _ G). congruence.
  Qed.
  Lemma list_again s s' o o' e : reach c s -> reach c s' -> names s o CList e -> names s' o' CList e -> forall A (ld : loader A) required,
    snd (list_values o' ld required s') = snd (list_values o ld required s).
  Proof.
    intros Hs Hs' HN HN' A ld required.
    assert (is_element (hget (c_heap c) e)) as He by (eapply object_element; eauto).
    destruct (proj1 (whole_ones HP e He)) as (L & HL & _). destruct (parsed_copies HP) as (h0 & cs & cn & HA & Hr & HR).
    assert (item_list (c_heap c) e L) as HL' by (eapply whole_item_list; eassumption).
    destruct (values_loaded HP s o e L Hs HN HL') as (vs & V & E). destruct (values_loaded HP s' o' e L Hs' HN' HL') as (vs' & V' & E').
    assert (vs = vs') as <-. { clear E E' HL HL'. revert vs' V'. induction V as [|x v L vs Hx HV IH]; intros vs' V'; inversion V' as [|? ? ? ? G1 G2]; subst; [reflexivity|]. f_equal; [eapply value_text_one; eassumption|now apply IH]. }
    eapply in_turn_fun; [apply E'|apply E].
  Qed.

  Lemma value_joined_object s o cl e : reach c s -> names s o cl e -> has_value cl -> n_template (hget (c_heap c) e) = None ->
    exists v, plain_value inp (hget (c_heap c) e) v /\ forall A (ld : loader A) required, snd (value_of o ld required s) = value_outcome c e ld required v.
  Proof.
    intros Hs HN Hcl Ht. destruct (value_is_whole HP s o cl e Hs HN Hcl) as (v & Hv & _). exists v. split; [|now apply (value_whole HP s o cl e)].
    inversion Hv as [? ? _ G|? t ? (k & (_ & _ & Hk) & _)]; subst; [assumption|congruence].
  Qed.
End Parsed.
