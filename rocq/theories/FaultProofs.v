(** FaultProofs: every validation error raised in a session is one of the [Validation.*] errors,
    about the document as it was parsed. *)
From Verif Require Import Base Types Messages Resolver Reporter Errors Context Elements Session Faults Silent SpecTree SpecRead SpecApi Reads ApiDoc ApiInv ApiState ErrorCaches ApiOps SessionInv.

(** * Reading from the context *)

Section Quiet.
  Context {S : Type}.
  Definition quiet {A} (m : M S A) : Prop := forall s x, snd (m s) <> Raise (ValidationError x).
  Lemma q_ret {A} (a : A) : quiet (ret a). Proof. intros s x. discriminate. Qed.
  Lemma q_raise {A} e : (forall x, e <> ValidationError x) -> quiet (@raise S A e). Proof. intros H s x [= E]. now apply (H x). Qed.
  Lemma q_lift {A} (r : res A) : (forall x, r <> Raise (ValidationError x)) -> quiet (lift r). Proof. intros H s x E. now apply (H x). Qed.
  Lemma q_bind {A B} (m : M S A) (f : A -> M S B) : quiet m -> (forall a, quiet (f a)) -> quiet (mbind m f).
  Proof. intros Hm Hf s x. unfold mbind. specialize (Hm s x). destruct (m s) as [s' [a|e]]; [apply Hf|]. cbn in *. intros [= ->]. now apply Hm. Qed.
  Lemma q_mapM {A B} (f : A -> M S B) : (forall a, quiet (f a)) -> forall l, quiet (mapM f l).
  Proof.
    intros Hf l. induction l as [|a l IH]; cbn [mapM]; [apply q_ret|]. apply q_bind; [apply Hf|]. intro. apply q_bind; [exact IH|]. intro. apply q_ret.
  Qed.
  Lemma q_get : quiet (@get S). Proof. intros s x. discriminate. Qed.
End Quiet.
Lemma key_or_quiet {A} (o : option A) x : key_or o <> Raise (ValidationError x). Proof. destruct o; discriminate. Qed.
Lemma q_hnode e : quiet (hnode e). Proof. intros s x. discriminate. Qed.
Lemma q_hset e f : quiet (hset e f). Proof. intros s x. discriminate. Qed.

Ltac q1 := first
  [ apply q_ret | apply q_get | apply q_hnode | apply q_hset | apply q_raise; intros ? ?; discriminate
  | apply q_lift; intro; apply key_or_quiet
  | apply q_mapM; intro | apply q_bind; [|intro]
  | match goal with H : forall e, quiet _ |- _ => apply H end
  | match goal with |- quiet (match ?x with _ => _ end) => destruct x end ].
Lemma q_comment e : quiet (comment e). Proof. unfold comment. repeat q1. Qed.
Lemma q_value inp f : forall e, quiet (value inp f e). Proof. induction f; intro e; cbn [value]; repeat q1. Qed.
Lemma q_items f : forall e, quiet (items f e). Proof. induction f; intro e; cbn [items]; repeat q1. Qed.
Lemma q_entries f : forall e, quiet (entries f e). Proof. induction f; intro e; cbn [entries]; repeat q1. Qed.
Lemma q_elements f : forall e, quiet (elements f e). Proof. induction f; intro e; cbn [elements]; repeat q1. Qed.
Lemma q_raw inp f : forall e, quiet (raw inp f e).
Proof.
  induction f as [|f IH]; intro e; cbn [raw]; repeat first [apply q_comment | apply q_value | apply q_items | apply q_entries | apply q_elements | q1].
Qed.

(** * Calls *)

Section Calls.
  Context (c0 : ctx) (HD : Doc (c_heap c0)).
  Local Notation r := (c_heap c0).
  Local Notation inp := (c_input c0).
  Local Notation Ctx s := (CtxOk r c0 (s_ctx s)).
  Definition fault_of (x : eno_error) : Prop := exists v, validation_error c0 v = Ok x.
  Definition traced {A} (m : sM A) : Prop := forall s, Ctx s -> Ctx (fst (m s)) /\ forall x, snd (m s) = Raise (ValidationError x) -> fault_of x.

  Lemma t_ret {A} (a : A) : traced (ret a). Proof. intros s H. split; [exact H|]. discriminate. Qed.
  Lemma t_get : traced get. Proof. intros s H. split; [exact H|]. discriminate. Qed.
  Lemma t_raise {A} e : (forall x, e <> ValidationError x) -> traced (@raise st A e).
  Proof. intros He s H. split; [exact H|]. intros x [= E]. now apply He in E. Qed.
  Lemma t_lift {A} (o : option A) : traced (lift (key_or o)).
  Proof. intros s H. split; [exact H|]. intros x E. now apply key_or_quiet in E. Qed.
  Lemma t_bind {A B} (m : sM A) (f : A -> sM B) : traced m -> (forall a, traced (f a)) -> traced (mbind m f).
  Proof.
    intros Hm Hf s H. unfold mbind. destruct (Hm s H) as [H1 H2]. destruct (m s) as [s' [a|e]]; [now apply Hf|]. split; [exact H1|]. cbn in *. intros x [= ->]. now apply H2.
  Qed.
  Lemma t_mapM {A B} (f : A -> sM B) : (forall a, traced (f a)) -> forall l, traced (mapM f l).
  Proof.
    intros Hf l. induction l as [|a l IH]; cbn [mapM]; [apply t_ret|]. apply t_bind; [apply Hf|]. intro. apply t_bind; [exact IH|]. intro. apply t_ret.
  Qed.
  Lemma t_iterM {A} (f : A -> sM unit) : (forall a, traced (f a)) -> forall l, traced (iterM f l).
  Proof. intros Hf l. induction l as [|a l IH]; cbn [iterM]; [apply t_ret|]. apply t_bind; [apply Hf|]. intro. exact IH. Qed.
  Lemma t_obj o : traced (the_obj o). Proof. intros s H. split; [exact H|]. discriminate. Qed.
  Lemma t_ctx : traced the_ctx. Proof. intros s H. split; [exact H|]. discriminate. Qed.
  Lemma t_inode e : traced (inode e). Proof. intros s H. split; [exact H|]. discriminate. Qed.
  Lemma t_hfuel : traced hfuel. Proof. intros s H. split; [exact H|]. discriminate. Qed.
  Lemma t_ofuel : traced ofuel. Proof. intros s H. split; [exact H|]. discriminate. Qed.
  Lemma t_oset o f : traced (oset o f). Proof. intros s H. split; [exact H|]. discriminate. Qed.
  Lemma t_new cl e p : traced (new_obj cl e p). Proof. intros s H. split; [exact H|]. discriminate. Qed.
  Lemma t_indexed o l : traced (not_indexed o l). Proof. intros s H. split; [exact H|]. discriminate. Qed.
  Lemma t_heap {A} (m : hM A) : keeping inp r m -> quiet m -> traced (on_heap m).
  Proof.
    intros Hk Hq s [C1 C2]. unfold on_heap. pose proof (Hq (c_heap (s_ctx s))) as G. destruct (m (c_heap (s_ctx s))) as [h' v] eqn:E. cbn [fst snd] in *.
    split; [split; cbn; [rewrite C1; reflexivity|exact (Hk _ _ _ C2 E)]|]. intros x Hx. now apply G in Hx.
  Qed.
  (** building the error *)
  Lemma t_fail {A} f v : (forall c, f c = validation_error c v) -> traced (@fail A f).
  Proof.
    intros Hf s H. unfold fail, mbind, the_ctx. rewrite Hf.
    assert (validation_error (s_ctx s) v = validation_error c0 v) as ->.
    { assert (forall c, validation_error (strip_ctx c) v = validation_error c v) as Hb.
      { intro c. destruct v; cbn [validation_error]; auto using strip_comment_error, strip_element_error, strip_key_error, strip_missing_comment,
          strip_missing_element, strip_missing_value, strip_unexpected_element, strip_multiple, strip_element_type, strip_value_error. }
      rewrite <- (Hb (s_ctx s)), <- (Hb c0). f_equal. destruct H as [C1 C2]. unfold strip_ctx. rewrite C1. unfold with_heap. cbn. f_equal. apply strip_same; [apply C2|]. intro i. apply C2. }
    destruct (validation_error c0 v) as [x|e] eqn:E; unfold raise; cbn; (split; [exact H|]).
    - intros y [= <-]. exists v. exact E.
    - intros y [= ->]. exfalso. revert E. apply no_validation.
  Qed.

  Lemma t_with_ctx {A} (k : ctx -> sM A) : (forall c, c_input c = inp -> traced (k c)) -> traced (mbind the_ctx k).
  Proof. intros Hk s H. unfold mbind, the_ctx. apply Hk; [|exact H]. destruct H as [C1 _]. rewrite C1. reflexivity. Qed.
  Lemma t_value f e c : c_input c = inp -> traced (on_heap (value (c_input c) f e)).
  Proof. intros ->. apply t_heap; [apply keeping_value|apply q_value]. Qed.
  Lemma t_raw f e c : c_input c = inp -> traced (on_heap (raw (c_input c) f e)).
  Proof. intros ->. apply t_heap; [apply keeping_raw|apply q_raw]. Qed.
  Lemma t_comment e : traced (on_heap (comment e)).
  Proof. apply t_heap; [apply keeping_comment|apply q_comment]. Qed.

  Ltac t1 := first
    [ apply t_ret | apply t_get | apply t_obj | apply t_inode | apply t_hfuel | apply t_ofuel | apply t_oset | apply t_new | apply t_indexed | apply t_lift
    | apply t_raise; intros ? ?; discriminate | apply t_comment | apply t_value; assumption | apply t_raw; assumption
    | apply t_with_ctx; intros ? ? | apply t_mapM; intro | apply t_iterM; intro | apply t_bind; [|intro]
    | match goal with H : forall _, traced _ |- _ => apply H end
    | match goal with H : forall _ _, traced _ |- _ => apply H end
    | match goal with |- traced (match ?x with _ => _ end) => destruct x end ].
  Lemma t_touch o : traced (touch_obj o). Proof. apply t_oset. Qed.
  Lemma t_child cl o e : traced (instantiate_child cl o e). Proof. unfold instantiate_child. repeat t1. Qed.
  Lemma t_append o l : traced (append_children o l). Proof. apply t_oset. Qed.
  Lemma t_els f : forall o e, traced (instantiate_elements f o e).
  Proof. induction f; intros o e; cbn [instantiate_elements]; repeat first [apply t_child|apply t_append|t1]. Qed.
  Lemma t_ents f : forall o e, traced (instantiate_entries f o e).
  Proof. induction f; intros o e; cbn [instantiate_entries]; repeat first [apply t_child|apply t_append|t1]. Qed.
  Lemma t_its f : forall o e, traced (instantiate_items f o e).
  Proof. induction f; intros o e; cbn [instantiate_items]; repeat first [apply t_child|apply t_append|t1]. Qed.
  Lemma t_sec o : traced (section_children o). Proof. unfold section_children. repeat first [apply t_els|t1]. Qed.
  Lemma t_fs o : traced (fieldset_children o). Proof. unfold fieldset_children. repeat first [apply t_ents|t1]. Qed.
  Lemma t_li o : traced (list_children o). Proof. unfold list_children. repeat first [apply t_its|t1]. Qed.
  Lemma t_by ch o k : (forall o, traced (ch o)) -> traced (by_key ch o k). Proof. intro H. unfold by_key. repeat t1. Qed.
  Ltac t2 := first [ apply t_sec | apply t_fs | apply t_li | apply t_by; intro | apply t_touch | t1 ].
  Lemma f_type k e q : traced (@fail nat (fun c => v_unexpected_element_type c k e q)).
  Proof. now apply (t_fail _ (OtherKind k e q)). Qed.
  Lemma t_kind k e : traced (to_kind k e).
  Proof. unfold to_kind. repeat first [apply f_type|t2]. Qed.
  Lemma t_query w o k q : traced (query w o k q).
  Proof.
    unfold query. repeat first [apply t_kind | now eapply (t_fail _ (OtherKind _ _ _)) | now eapply (t_fail _ (NoElement _ _ _)) | now eapply (t_fail _ (TooMany _ _ _)) | t2].
  Qed.
  Lemma t_plural kd o k : traced (plural kd o k).
  Proof. unfold plural. repeat first [apply t_kind|apply f_type|t2]. Qed.
  Lemma t_entry o k q : traced (entry_query o k q).
  Proof. unfold entry_query. repeat first [now eapply (t_fail _ (NoElement _ _ _)) | now eapply (t_fail _ (TooMany _ _ _)) | t2]. Qed.
  Lemma t_loader {A} (ld : loader A) t err : (forall m, traced (@fail A (err m))) -> traced (run_loader ld t err).
  Proof. intro H. unfold run_loader. destruct (ld t); [apply t_ret|apply H|t2]. Qed.
  Lemma t_value_of {A} o (ld : loader A) q : traced (value_of o ld q).
  Proof. unfold value_of. repeat first [now eapply (t_fail _ (NoValue _)) | apply t_loader; intro; now eapply (t_fail _ (BadValue _ _)) | t2]. Qed.
  Lemma t_comment_of {A} o (ld : loader A) q : traced (comment_of o ld q).
  Proof. unfold comment_of. repeat first [now eapply (t_fail _ (NoComment _)) | apply t_loader; intro; now eapply (t_fail _ (BadComment _ _)) | t2]. Qed.
  Lemma t_plain o : traced (plain_key o). Proof. unfold plain_key. repeat t2. Qed.
  Lemma t_key {A} o (ld : loader A) : traced (key_with o ld).
  Proof. unfold key_with. repeat first [apply t_plain | apply t_loader; intro; now eapply (t_fail _ (BadKey _ _)) | t2]. Qed.
  Lemma t_items o : traced (list_items o). Proof. unfold list_items. repeat t2. Qed.
  Lemma t_values {A} o (ld : loader A) q : traced (list_values o ld q).
  Proof. unfold list_values. repeat first [apply t_items|apply t_value_of|t2]. Qed.
  Lemma t_raw_of o : traced (raw_of o). Proof. unfold raw_of. repeat t2. Qed.
  Lemma t_missing {A} : forall m, traced (@missing_error A m).
  Proof.
    fix IH 1. intros [k key [o|m]]; cbn [missing_error]; [|apply IH]. repeat first [now eapply (t_fail _ (NoElement _ _ _))|t2].
  Qed.
  Lemma t_unleaf ch o : (forall o, traced (ch o)) -> traced (untouched_leaf ch o). Proof. intro H. unfold untouched_leaf. repeat t2. Qed.
  Lemma t_first {A} (f : A -> sM (option nat)) : (forall a, traced (f a)) -> forall l, traced (first_some f l).
  Proof. intros Hf l. induction l as [|a l IH]; cbn [first_some]; repeat t2. exact IH. Qed.
  Lemma t_untouched f : forall e, traced (untouched_element f e).
  Proof. induction f; intro e; cbn [untouched_element]; repeat first [apply t_unleaf; intro|apply t_first; intro|t2]. Qed.
  Lemma t_assert o m only skip : traced (assert_all_touched o m only skip).
  Proof. unfold assert_all_touched. repeat first [apply t_first; intro|apply t_untouched|now eapply (t_fail _ (NotExpected _ _))|t2]. Qed.
  Lemma t_fassert o m only skip : traced (fieldset_assert_all_touched o m only skip).
  Proof. unfold fieldset_assert_all_touched. repeat t2. Qed.
  Lemma t_group ch o : (forall o, traced (ch o)) -> traced (touch_group ch o). Proof. intro H. unfold touch_group. repeat t2. Qed.
  Lemma t_slot f x : (forall y, traced (f y)) -> traced (touch_slot f x). Proof. intro H. unfold touch_slot. repeat t2. Qed.
  Lemma t_touch_el f : forall e, traced (touch_element f e).
  Proof. induction f; intro e; cbn [touch_element]; repeat first [apply t_slot; intro|apply t_group; intro|t2]. Qed.
  Lemma t_touch_sec o : traced (touch_section o). Proof. unfold touch_section. repeat first [apply t_touch_el|t2]. Qed.
  Lemma t_require f : forall o b, traced (require_all f o b).
  Proof. induction f; intros o b; cbn [require_all]; repeat first [apply t_kind|apply t_oset|t2]. Qed.
  Lemma t_parent o : traced (parent_of o). Proof. unfold parent_of. repeat t2. Qed.
  Lemma t_print o : traced (print_of o). Proof. unfold print_of, print_value. repeat t2. Qed.
  Theorem traced_call c : traced (run_call c).
  Proof.
    destruct c; cbn [run_call]; unfold section_elements, fieldset_entries, string_key, touch, all_elements_required, all_entries_required;
    repeat first [apply t_query|apply t_plural|apply t_kind|apply t_entry|apply t_items|apply t_values|apply t_value_of|apply t_comment_of|apply t_key|apply t_plain|apply t_raw_of
      |apply t_assert|apply t_fassert|apply t_group; intro|apply t_touch_el|apply t_touch_sec|apply t_require|apply t_parent|apply t_print|t2].
  Qed.

  (** the error constructors do not change anything *)
  Theorem built_fault o m s x : Ctx s ->
    In (Ok x) [snd (error_of o m s); snd (comment_error_of o m s); snd (key_error_of o m s); snd (value_error_of o m s)] -> fault_of x.
  Proof.
    intros H Hin.
    assert (K : forall v, validation_error (s_ctx s) v = Ok x -> fault_of x).
    { intros v E. pose proof (t_fail (A := unit) (fun c => validation_error c v) v (fun c => eq_refl) s H) as [_ G]. apply G. unfold fail, mbind, the_ctx. rewrite E. reflexivity. }
    destruct Hin as [E|[E|[E|[E|[]]]]]; cbn in E; [apply (K (BadElement m (o_instr (oget s o))))|apply (K (BadComment m (o_instr (oget s o))))
      |apply (K (BadKey m (o_instr (oget s o))))|apply (K (BadValue m (o_instr (oget s o))))]; exact E.
  Qed.
End Calls.
