(** Frames: what the operations leave alone.  A relation between states that holds for every single
    step holds for every call. *)
From Verif Require Import Base Types Messages Resolver Reporter Errors Context Elements Session.

(** changes of an object that keep what it stands for and its flags *)
Record mild (f : obj -> obj) : Prop := {
  mi_class : forall x, o_class (f x) = o_class x;
  mi_instr : forall x, o_instr (f x) = o_instr x;
  mi_parent : forall x, o_parent (f x) = o_parent x;
  mi_touched : forall x, o_touched (f x) = o_touched x;
  mi_req : forall x, o_req (f x) = o_req x
}.

Section Frame.
  (** [T o]: object [o] may be touched; [Q]: flags may be set *)
  Context (R : st -> st -> Prop) (T : nat -> Prop) (Q : Prop).
  Context (R_refl : forall s, R s s) (R_trans : forall a b d, R a b -> R b d -> R a d).
  Context (R_new : forall cl i p s, R s (fst (new_obj cl i p s))).
  Context (R_mild : forall o f s, mild f -> R s (upd_obj o f s)).
  Context (R_heap : forall s h, R s (MkSt (with_heap (s_ctx s) h) (s_objs s))).
  Context (R_touch : forall o s, T o -> R s (upd_obj o with_touched s)).
  Context (R_req : forall o b s, Q -> R s (upd_obj o (with_req b) s)).

  Definition frame {A} (m : sM A) : Prop := forall s, R s (fst (m s)).

  Lemma fr_bind {A B} (m : sM A) (k : A -> sM B) : frame m -> (forall a, frame (k a)) -> frame (mbind m k).
  Proof. intros H G s. specialize (H s). unfold mbind. destruct (m s) as [s1 [a|e]]; [|exact H]. eapply R_trans; [exact H|apply G]. Qed.
  Lemma fr_still {A} (m : sM A) : (forall s, fst (m s) = s) -> frame m.
  Proof. intros H s. rewrite H. apply R_refl. Qed.
  Lemma fr_ret {A} (a : A) : frame (ret a). Proof. now apply fr_still. Qed.
  Lemma fr_raise {A} e : frame (@raise st A e). Proof. now apply fr_still. Qed.
  Lemma fr_lift {A} (x : res A) : frame (lift x). Proof. now apply fr_still. Qed.
  Lemma fr_obj o : frame (the_obj o). Proof. now apply fr_still. Qed.
  Lemma fr_ctx : frame the_ctx. Proof. now apply fr_still. Qed.
  Lemma fr_get : frame get. Proof. now apply fr_still. Qed.
  Lemma fr_inode e : frame (inode e). Proof. now apply fr_still. Qed.
  Lemma fr_hfuel : frame hfuel. Proof. now apply fr_still. Qed.
  Lemma fr_ofuel : frame ofuel. Proof. now apply fr_still. Qed.
  Lemma fr_not_indexed o l : frame (not_indexed o l). Proof. now apply fr_still. Qed.
  Lemma fr_fail {A} f : frame (@fail A f).
  Proof. apply fr_bind; [apply fr_ctx|]. intro c. destruct (f c); apply fr_raise. Qed.
  Lemma fr_heap {A} (f : hM A) : frame (on_heap f).
  Proof. intro s. unfold on_heap. destruct (f (c_heap (s_ctx s))) as [h x]. apply R_heap. Qed.
  Lemma fr_new cl i p : frame (new_obj cl i p). Proof. intro s. apply R_new. Qed.
  Lemma fr_mild o f : mild f -> frame (oset o f). Proof. intros H s. now apply R_mild. Qed.
  Lemma fr_touch o : T o -> frame (touch_obj o). Proof. intros H s. now apply R_touch. Qed.
  Lemma fr_req o b : Q -> frame (oset o (with_req b)). Proof. intros H s. now apply R_req. Qed.
  Lemma fr_mapM {A B} (f : A -> sM B) l : (forall a, In a l -> frame (f a)) -> frame (mapM f l).
  Proof.
    induction l as [|a l IH]; intro H; cbn [mapM]; [apply fr_ret|]. apply fr_bind; [apply H; now left|]. intro b. apply fr_bind; [apply IH; intros x Hx; apply H; now right|]. intro. apply fr_ret.
  Qed.
  Lemma fr_iterM {A} (f : A -> sM unit) l : (forall a, In a l -> frame (f a)) -> frame (iterM f l).
  Proof. induction l as [|a l IH]; intro H; cbn [iterM]; [apply fr_ret|]. apply fr_bind; [apply H; now left|]. intro. apply IH. intros x Hx. apply H. now right. Qed.
  Lemma fr_first {A} (f : A -> sM (option nat)) l : (forall a, In a l -> frame (f a)) -> frame (first_some f l).
  Proof. induction l as [|a l IH]; intro H; cbn [first_some]; [apply fr_ret|]. apply fr_bind; [apply H; now left|]. intros [b|]; [apply fr_ret|]. apply IH. intros x Hx. apply H. now right. Qed.

  Lemma mild_children l m : mild (with_children l m). Proof. now split. Qed.
  Lemma mild_yield k x : mild (with_yield k x). Proof. now split. Qed.

  Ltac fr := repeat match goal with
    | |- frame (ret _) => apply fr_ret | |- frame (raise _) => apply fr_raise | |- frame (lift _) => apply fr_lift | |- frame (the_obj _) => apply fr_obj | |- frame the_ctx => apply fr_ctx
    | |- frame get => apply fr_get | |- frame (inode _) => apply fr_inode | |- frame hfuel => apply fr_hfuel | |- frame ofuel => apply fr_ofuel | |- frame (not_indexed _ _) => apply fr_not_indexed
    | |- frame (fail _) => apply fr_fail | |- frame (on_heap _) => apply fr_heap | |- frame (new_obj _ _ _) => apply fr_new
    | |- frame (mapM _ _) => apply fr_mapM; intros | |- frame (mbind _ _) => apply fr_bind; [|intros] end.

  Lemma fr_child cl o e : frame (instantiate_child cl o e).
  Proof. unfold instantiate_child. fr. apply fr_mild. now split. Qed.
  Lemma fr_append o xs : frame (append_children o xs).
  Proof. apply fr_mild. split; reflexivity. Qed.
  Lemma fr_elements fuel : forall o e, frame (instantiate_elements fuel o e).
  Proof.
    induction fuel as [|f IH]; intros o e; cbn [instantiate_elements]; [apply fr_raise|]. apply fr_bind; [apply fr_inode|]. intro n. destruct (n_mirror n); [apply IH|].
    fr; [apply fr_child|apply fr_append|]. destruct (n_extend n); [apply IH|apply fr_ret].
  Qed.
  Lemma fr_entries fuel : forall o e, frame (instantiate_entries fuel o e).
  Proof.
    induction fuel as [|f IH]; intros o e; cbn [instantiate_entries]; [apply fr_raise|]. apply fr_bind; [apply fr_inode|]. intro n. destruct (n_mirror n); [apply IH|].
    destruct (n_entries n); [|apply fr_ret]. fr; [apply fr_child|destruct (n_extend n); [apply IH|apply fr_ret]|apply fr_append].
  Qed.
  Lemma fr_items fuel : forall o e, frame (instantiate_items fuel o e).
  Proof.
    induction fuel as [|f IH]; intros o e; cbn [instantiate_items]; [apply fr_raise|]. apply fr_bind; [apply fr_inode|]. intro n. destruct (n_mirror n); [apply IH|].
    destruct (n_extend n); [|destruct (n_items n); [fr|apply fr_ret]]. fr. apply IH.
  Qed.
  Lemma fr_section_children o : frame (section_children o).
  Proof. unfold section_children. apply fr_bind; [apply fr_obj|]. intro x. destruct (o_children x); [apply fr_ret|]. fr; [apply fr_mild, mild_children|apply fr_elements]. Qed.
  Lemma fr_fieldset_children o : frame (fieldset_children o).
  Proof. unfold fieldset_children. apply fr_bind; [apply fr_obj|]. intro x. destruct (o_children x); [apply fr_ret|]. fr; [apply fr_mild, mild_children|apply fr_entries]. Qed.
  Lemma fr_list_children o : frame (list_children o).
  Proof. unfold list_children. apply fr_bind; [apply fr_obj|]. intro x. destruct (o_children x); [apply fr_ret|]. fr; [apply fr_items|]. apply fr_mild. split; reflexivity. Qed.
  Lemma fr_by_key children o key : frame (children o) -> frame (by_key children o key).
  Proof. intro H. unfold by_key. destruct key as [[|c k]|]; try exact H. fr. exact H. Qed.
  Lemma fr_to_kind k e : frame (to_kind k e).
  Proof.
    unfold to_kind. apply fr_bind; [apply fr_obj|]. intro x. destruct (yield_slot k x); [apply fr_ret|]. apply fr_bind.
    - destruct k, (o_yielded x); first [apply fr_ret|apply fr_raise].
    - intro. apply fr_bind; [apply fr_inode|]. intro n. destruct (accepts k (n_type n)); [|apply fr_fail]. fr. apply fr_mild, mild_yield.
  Qed.
  Lemma fr_loader {A} (ld : loader A) t err : frame (run_loader ld t err).
  Proof. unfold run_loader. destruct (ld t); fr. Qed.
  Lemma fr_value {A} o (ld : loader A) q : T o -> frame (value_of o ld q).
  Proof. intro HT. unfold value_of. apply fr_bind; [now apply fr_touch|]. intro. fr. destruct a3; [fr; apply fr_loader|]. destruct q; fr. Qed.
  Lemma fr_plain_key o : frame (plain_key o).
  Proof. unfold plain_key. fr. destruct (itype_eqb (n_type a0) LIST_ITEM); fr. Qed.
  Lemma fr_leaf children o : frame (children o) -> frame (untouched_leaf children o).
  Proof. intro H. unfold untouched_leaf. apply fr_bind; [apply fr_obj|]. intro x. destruct (o_touched x); fr. exact H. Qed.
  Lemma fr_untouched fuel : forall e, frame (untouched_element fuel e).
  Proof.
    induction fuel as [|f IH]; intro e; cbn [untouched_element]; [apply fr_raise|]. apply fr_bind; [apply fr_obj|]. intro x. apply fr_bind; [apply fr_get|]. intro s. destruct (o_yielded x); [|apply fr_ret].
    destruct (match o_empty x with Some y => negb (o_touched (oget s y)) | None => false end); [apply fr_ret|].
    destruct (match o_field x with Some y => negb (o_touched (oget s y)) | None => false end); [apply fr_ret|].
    destruct (o_fieldset x); [apply fr_leaf, fr_fieldset_children|]. destruct (o_list x); [apply fr_leaf, fr_list_children|]. destruct (o_section x); [|apply fr_ret].
    apply fr_bind; [apply fr_obj|]. intro sx. destruct (o_touched sx); [|apply fr_ret]. apply fr_bind; [apply fr_section_children|]. intro l. apply fr_first. intros. apply IH.
  Qed.
  Lemma fr_require (HQ : Q) b fuel : forall o, frame (require_all fuel o b).
  Proof.
    induction fuel as [|f IH]; intro o; cbn [require_all]; [apply fr_raise|]. apply fr_bind; [now apply fr_req|]. intro. apply fr_bind; [apply fr_section_children|]. intro l. apply fr_iterM. intros e _.
    apply fr_bind; [apply fr_obj|]. intro x. apply fr_bind; [apply fr_inode|]. intro n. destruct (n_type n); try apply fr_ret; (destruct (o_yielded x); [|apply fr_raise]).
    all: apply fr_bind; [apply fr_to_kind|]; intro y; first [apply IH|now apply fr_req].
  Qed.
  Lemma fr_parent o : frame (parent_of o).
  Proof.
    unfold parent_of. apply fr_bind; [apply fr_obj|]. intro x. apply fr_bind; [apply fr_inode|]. intro n. destruct (o_class x); try apply fr_raise.
    - destruct (itype_eqb (n_type n) DOCUMENT); [|apply fr_ret]. destruct (o_parent x); fr.
    - destruct (o_parent x); fr.
    - destruct (o_parent x); fr.
    - destruct (o_parent x); fr.
    - destruct (o_parent x); fr.
    - destruct (o_parent x); fr.
    - destruct (o_parent x); fr.
  Qed.
  Lemma fr_print_value o : frame (print_value o).
  Proof. unfold print_value. fr. Qed.
  Lemma fr_print o : frame (print_of o).
  Proof.
    unfold print_of. apply fr_bind; [apply fr_obj|]. intro x. apply fr_bind; [apply fr_inode|]. intro n. destruct (o_class x).
    1: destruct (itype_eqb (n_type n) DOCUMENT).
    all: fr; first [apply fr_section_children|apply fr_fieldset_children|apply fr_list_children|apply fr_print_value].
  Qed.
  Lemma fr_touch_element (HT : forall o, T o) fuel : forall e, frame (touch_element fuel e).
  Proof.
    assert (TG : forall children o, frame (children o) -> frame (touch_group children o)).
    { intros children o H. apply fr_bind; [now apply fr_touch|]. intro. apply fr_bind; [exact H|]. intro l. apply fr_iterM. intros. now apply fr_touch. }
    induction fuel as [|f IH]; intro e; cbn [touch_element]; [apply fr_raise|]. apply fr_bind; [apply fr_obj|]. intro x. destruct (o_yielded x); [|apply fr_ret].
    assert (TS : forall g y, (forall z, frame (g z)) -> frame (touch_slot g y)) by (intros g [z|] H; [apply H|apply fr_ret]).
    repeat (apply fr_bind; [|intro]); apply TS; intro z.
    1,2: now apply fr_touch. 1: apply TG, fr_fieldset_children. 1: apply TG, fr_list_children.
    apply fr_bind; [now apply fr_touch|]. intro. apply fr_bind; [apply fr_section_children|]. intro l. apply fr_iterM. intros. apply IH.
  Qed.
  Lemma fr_touch_any (HT : forall o, T o) o : frame (touch o).
  Proof.
    assert (TG : forall children o, frame (children o) -> frame (touch_group children o)).
    { intros children p H. apply fr_bind; [now apply fr_touch|]. intro. apply fr_bind; [exact H|]. intro l. apply fr_iterM. intros. now apply fr_touch. }
    unfold touch. apply fr_bind; [apply fr_obj|]. intro x. destruct (o_class x).
    all: match goal with
      | |- frame (touch_obj _) => now apply fr_touch
      | |- frame (touch_group fieldset_children _) => apply TG, fr_fieldset_children
      | |- frame (touch_group list_children _) => apply TG, fr_list_children
      | |- frame (mbind ofuel _) => apply fr_bind; [apply fr_ofuel|]; intro; now apply fr_touch_element
      | |- frame (touch_section _) => unfold touch_section; apply fr_bind; [apply fr_ofuel|]; intro; apply fr_bind; [now apply fr_touch|]; intro; apply fr_bind; [apply fr_section_children|]; intro;
          apply fr_iterM; intros; now apply fr_touch_element
      end.
  Qed.

  (** the calls by what they may change *)
  Definition allowed (c : call) : Prop :=
    match c with
    | Yield _ _ | Raw _ | AssertAllTouched _ _ _ _ | AssertEntriesTouched _ _ _ _ | Parent _ | Print _ => True
    | RequireElements _ _ | RequireEntries _ _ => Q
    | Touch _ | Values _ _ _ _ => forall o, T o
    | _ => T (subject c)
    end.
  Lemma fr_query w o k q : T o -> frame (query w o k q).
  Proof.
    intro HT. unfold query. apply fr_bind; [now apply fr_touch|]. intro. apply fr_bind; [apply fr_by_key, fr_section_children|]. intro els. apply fr_bind; [apply fr_obj|]. intro x.
    destruct els as [|e [|e2 els]].
    - destruct (_ || _)%bool; [apply fr_fail|]. destruct q; apply fr_ret.
    - destruct w; [|apply fr_ret]. fr. destruct (accepts k0 (n_type a1)); fr. apply fr_to_kind.
    - fr.
  Qed.
  Lemma fr_entry o k q : T o -> frame (entry_query o k q).
  Proof.
    intro HT. unfold entry_query. apply fr_bind; [now apply fr_touch|]. intro. apply fr_bind; [apply fr_by_key, fr_fieldset_children|]. intro els. apply fr_bind; [apply fr_obj|]. intro x.
    destruct els as [|e [|e2 els]]; [destruct (_ || _)%bool; [apply fr_fail|]; destruct q; apply fr_ret|apply fr_ret|fr].
  Qed.
  Lemma fr_plural k o key : T o -> frame (plural k o key).
  Proof.
    intro HT. unfold plural. apply fr_bind; [now apply fr_touch|]. intro. apply fr_bind; [apply fr_by_key, fr_section_children|]. intro els. fr. destruct (accepts k (n_type a2)); [apply fr_to_kind|apply fr_fail].
  Qed.
  Lemma fr_drop {A} (m : sM A) : frame m -> frame (let! _ := m in ret tt).
  Proof. intro H. apply fr_bind; [exact H|]. intro. apply fr_ret. Qed.
  Lemma fr_call c : allowed c -> frame (run_call c).
  Proof.
    intro HA. destruct c; cbn [allowed subject] in HA; cbn [run_call]; try apply fr_drop.
    - now apply fr_query.
    - apply fr_bind; [now apply fr_touch|]. intro. apply fr_by_key, fr_section_children.
    - now apply fr_plural.
    - apply fr_to_kind.
    - now apply fr_entry.
    - apply fr_bind; [now apply fr_touch|]. intro. apply fr_by_key, fr_fieldset_children.
    - apply fr_bind; [now apply fr_touch|]. intro. apply fr_list_children.
    - unfold list_values, list_items. apply fr_bind; [apply fr_bind; [now apply fr_touch|intro; apply fr_list_children]|]. intro. apply fr_mapM. intros. now apply fr_value.
    - now apply fr_value.
    - unfold comment_of. apply fr_bind; [now apply fr_touch|]. intro. fr. destruct a1 as [[|ch t]|]; [destruct required; fr|fr; apply fr_loader|destruct required; fr].
    - unfold key_with. apply fr_bind; [now apply fr_touch|]. intro. fr; [apply fr_plain_key|apply fr_loader].
    - apply fr_bind; [now apply fr_touch|]. intro. apply fr_plain_key.
    - unfold raw_of. fr.
    - unfold assert_all_touched. fr; [apply fr_section_children|apply fr_first; intros; apply fr_untouched|]. destruct a2; fr.
    - unfold fieldset_assert_all_touched. fr; [apply fr_fieldset_children|]. destruct (find _ _); fr.
    - now apply fr_touch_any.
    - unfold all_elements_required. apply fr_bind; [apply fr_ofuel|]. intro. now apply fr_require.
    - now apply fr_req.
    - apply fr_parent.
    - apply fr_print.
  Qed.
End Frame.
