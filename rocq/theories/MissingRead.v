(** MissingRead: missing elements read as a field, list, fieldset or section (C30). *)
From Verif Require Import Base Types Messages Reporter Errors Context Elements SpecApi SpecQuery Session SessionRun SpecShow ShowProofs QueryExamples.

Lemma missing_read_as k key what o req s m : snd (query what o key req s) = Ok (FMissing m) -> outermost (missing_to_kind k m) = (missing_kind (Some k), key, o).
Proof.
  unfold query. unfold mbind at 1. destruct (touch_obj o s) as [s1 [[]|x]]; [|discriminate]. unfold mbind at 1. destruct (by_key section_children o key s1) as [s2 [els|x]]; [|discriminate].
  unfold mbind at 1, the_obj. destruct els as [|e [|e' els]].
  - destruct (_ || _); [intro H; destruct (fail_not _ _ _ H)|]. destruct req; [discriminate|]. cbn [snd ret]. intros [= <-]. reflexivity.
  - destruct what as [k'|]; [|discriminate]. unfold mbind at 1. unfold mbind at 1, inode. destruct (accepts k' _); [|intro H; destruct (fail_not _ _ _ H)].
    unfold mbind. destruct (to_kind k' e s2) as [s3 [y|x]]; discriminate.
  - unfold mbind at 1, get. intro H. destruct (fail_not _ _ _ H).
Qed.
Lemma below_read_as k key what m0 req s m : snd (missing_query what m0 key req s) = Ok (FMissing m) -> outermost (missing_to_kind k m) = outermost m0.
Proof.
  unfold missing_query. destruct req as [[|]|]; [intro H; destruct (error_not _ _ _ H)|discriminate|]. cbn [snd ret]. intros [= <-]. reflexivity.
Qed.
Theorem missing_kinds s m key what k :
  (forall o req, snd (query what o key req s) = Ok (FMissing m) -> outermost (missing_to_kind k m) = (missing_kind (Some k), key, o)) /\
  (forall m0 req, snd (missing_query what m0 key req s) = Ok (FMissing m) -> outermost (missing_to_kind k m) = outermost m0).
Proof. split; intros; [eapply missing_read_as|eapply below_read_as]; eassumption. Qed.

Lemma gone_list : exists m m', snd (query None 0 (key_named "gone") None (begin q_doc)) = Ok (FMissing m) /\
  outermost (missing_to_kind KSection m) = (MKSection, key_named "gone", 0) /\
  snd (missing_query None (missing_to_kind KSection m) (key_named "deeper") None (begin q_doc)) = Ok (FMissing m') /\
  outermost (missing_to_kind KList m') = (MKSection, key_named "gone", 0).
Proof. do 2 eexists. split; [vm_compute; reflexivity|]. split; [vm_compute; reflexivity|]. split; vm_compute; reflexivity. Qed.
