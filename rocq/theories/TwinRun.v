(** TwinRun: programs run alike on documents that differ in layout only (lemmas for C58). *)
From Verif Require Import Base Types Messages Resolver Reporter Errors Context Elements Session Faults Silent SpecTree SpecRead SpecApi Reads ApiDoc ApiInv ApiState ErrorCaches ApiOps SessionInv SpecQuery
  Analyzer SpecSaid SaidRun SaidReads SpecProgram.

Section Twin.
  Context (c1 c2 : ctx).
  Local Notation d := (c_input c1).
  Local Notation dd := (c_input c2).
  Local Notation same := (same d dd).
  Local Notation twins := (twins d dd).
  Record alike (s s' : st) : Prop := {
    al_objs : s_objs s = s_objs s'; al_heap : same (c_heap (s_ctx s)) (c_heap (s_ctx s'));
    al_1 : CtxOk (c_heap c1) c1 (s_ctx s); al_2 : CtxOk (c_heap c2) c2 (s_ctx s') }.
  Definition twin {A} (m m' : sM A) : Prop := forall s s', alike s s' -> alike (fst (m s)) (fst (m' s')) /\ same_outcome c1 c2 (snd (m s)) (snd (m' s')).

  Lemma w_ret {A} (a : A) : twin (ret a) (ret a). Proof. intros s s' H. split; [exact H|constructor]. Qed.
  Lemma w_raise {A} e : twin (@raise st A e) (raise e). Proof. intros s s' H. split; [exact H|constructor]. Qed.
  Lemma w_lift {A} (r : res A) : twin (lift r) (lift r). Proof. intros s s' H. split; [exact H|]. cbn. destruct r; constructor. Qed.
  Lemma w_bind {A B} (m m' : sM A) (f f' : A -> sM B) : twin m m' -> (forall a, twin (f a) (f' a)) -> twin (mbind m f) (mbind m' f').
  Proof.
    intros Hm Hf s s' H. destruct (Hm s s' H) as [K O]. unfold mbind. destruct (m s) as [s1 r1], (m' s') as [s2 r2]. cbn [fst snd] in *.
    destruct O as [a|e|v]; [now apply Hf|split; [exact K|constructor]|].
    pose proof (so_complaint c1 c2 v (A := B)) as G. unfold raised in *. destruct (validation_error c1 v), (validation_error c2 v); (split; [exact K|exact G]).
  Qed.
  Lemma w_mapM {A B} (f f' : A -> sM B) l : (forall a, twin (f a) (f' a)) -> twin (mapM f l) (mapM f' l).
  Proof.
    intro H. induction l as [|a l IH]; cbn [mapM]; [apply w_ret|]. apply w_bind; [apply H|]. intro y. apply w_bind; [exact IH|]. intro ys. apply w_ret.
  Qed.
  Lemma w_iterM {A} (f f' : A -> sM unit) l : (forall a, twin (f a) (f' a)) -> twin (iterM f l) (iterM f' l).
  Proof. intro H. induction l as [|a l IH]; cbn [iterM]; [apply w_ret|]. apply w_bind; [apply H|]. intro. exact IH. Qed.
  Lemma al_get s s' o : alike s s' -> oget s o = oget s' o. Proof. intro H. unfold oget. now rewrite (al_objs _ _ H). Qed.
  Lemma w_obj o : twin (the_obj o) (the_obj o).
  Proof. intros s s' H. split; [exact H|]. cbn. rewrite (al_get s s' o H). constructor. Qed.
  Lemma w_oset o f : twin (oset o f) (oset o f).
  Proof. intros s s' [H1 H2 H3 H4]. split; [|constructor]. split; cbn; try assumption. now rewrite H1. Qed.
  Lemma w_new cl e p : twin (new_obj cl e p) (new_obj cl e p).
  Proof.
    intros s s' H. pose proof H as [H1 H2 H3 H4]. unfold new_obj, alloc. cbn [fst snd].
    assert (match cl, p with (CSection | CFieldset), Some q => o_req (oget s q) | _, _ => false end = match cl, p with (CSection | CFieldset), Some q => o_req (oget s' q) | _, _ => false end) as ->.
    { destruct cl, p as [q|]; try reflexivity; now rewrite (al_get s s' q H). }
    rewrite H1. split; [split; cbn; try assumption; reflexivity|constructor].
  Qed.
  Lemma w_hfuel : twin hfuel hfuel.
  Proof. intros s s' H. split; [exact H|]. cbn. rewrite (same_length _ _ _ _ (al_heap _ _ H)). constructor. Qed.
  Lemma w_ofuel : twin ofuel ofuel.
  Proof. intros s s' H. split; [exact H|]. cbn. rewrite (al_objs _ _ H). constructor. Qed.
  Lemma w_indexed o l : twin (not_indexed o l) (not_indexed o l).
  Proof.
    intros s s' H. split; [exact H|]. unfold not_indexed. cbn [snd]. rewrite (al_get s s' o H).
    rewrite (filter_ext _ (fun e => negb (opt_is (assoc (key_of (c_heap (s_ctx s')) e) (o_map (oget s' o)))))); [constructor|].
    intro e. now rewrite (same_key _ _ _ _ e (al_heap _ _ H)).
  Qed.
  Lemma w_node {A} e (f f' : node -> sM A) : (forall n n', twins n n' -> twin (f n) (f' n')) -> twin (mbind (inode e) f) (mbind (inode e) f').
  Proof. intros Hf s s' H. unfold mbind, inode. apply Hf; [|exact H]. now apply same_get, al_heap. Qed.
  Lemma w_get {A} (f f' : st -> sM A) : (forall s s', s_objs s = s_objs s' -> twin (f s) (f' s')) -> twin (mbind get f) (mbind get f').
  Proof. intros Hf s s' H. unfold mbind, get. apply Hf; [|exact H]. apply H. Qed.
  Lemma w_ctx {A} (k k' : ctx -> sM A) : (forall c c', c_input c = d -> c_input c' = dd -> twin (k c) (k' c')) -> twin (mbind the_ctx k) (mbind the_ctx k').
  Proof. intros Hk s s' H. unfold mbind, the_ctx. apply Hk; [| |exact H]; destruct H as [_ _ [E _] [E' _]]; [rewrite E|rewrite E']; reflexivity. Qed.
  Lemma w_heap {A} (m m' : hM A) : keeping d (c_heap c1) m -> keeping dd (c_heap c2) m' -> SaidReads.agree d dd m m' -> twin (on_heap m) (on_heap m').
  Proof.
    intros K1 K2 Ha s s' [H1 H2 [C1 C2] [C1' C2']]. destruct (Ha _ _ H2) as [G1 G2]. unfold on_heap.
    destruct (m (c_heap (s_ctx s))) as [h r] eqn:E, (m' (c_heap (s_ctx s'))) as [h' r'] eqn:E'. cbn [fst snd] in *. subst r'. split; [|destruct r; constructor].
    split; cbn; [exact H1|exact G1| |].
    - split; cbn; [now rewrite C1|exact (K1 _ _ _ C2 E)].
    - split; cbn; [now rewrite C1'|exact (K2 _ _ _ C2' E')].
  Qed.
  Lemma error_is c0 c v : CtxOk (c_heap c0) c0 c -> validation_error c v = validation_error c0 v.
  Proof.
    intros [C1 C2]. assert (forall c, validation_error (strip_ctx c) v = validation_error c v) as Hb.
    { intro c'. destruct v; cbn [validation_error]; auto using strip_comment_error, strip_element_error, strip_key_error, strip_missing_comment,
        strip_missing_element, strip_missing_value, strip_unexpected_element, strip_multiple, strip_element_type, strip_value_error. }
    rewrite <- (Hb c), <- (Hb c0). f_equal. unfold strip_ctx. rewrite C1. unfold with_heap. cbn. f_equal. apply strip_same; [apply C2|]. intro i. apply C2.
  Qed.
  Lemma w_fail {A} f f' v : (forall c, f c = validation_error c v) -> (forall c, f' c = validation_error c v) -> twin (@fail A f) (fail f').
  Proof.
    intros Hf Hf' s s' H. unfold fail, mbind, the_ctx. rewrite Hf, Hf', (error_is c1 _ v (al_1 _ _ H)), (error_is c2 _ v (al_2 _ _ H)).
    pose proof (so_complaint c1 c2 v (A := A)) as G. unfold raised in G. destruct (validation_error c1 v), (validation_error c2 v); (split; [exact H|exact G]).
  Qed.
  Lemma w_value f e c c' : c_input c = d -> c_input c' = dd -> twin (on_heap (value (c_input c) f e)) (on_heap (value (c_input c') f e)).
  Proof. intros -> ->. apply w_heap; [apply keeping_value|apply keeping_value|apply agree_value]. Qed.
  Lemma w_raw f e c c' : c_input c = d -> c_input c' = dd -> twin (on_heap (raw (c_input c) f e)) (on_heap (raw (c_input c') f e)).
  Proof. intros -> ->. apply w_heap; [apply keeping_raw|apply keeping_raw|apply agree_raw]. Qed.
  Lemma w_comment e : twin (on_heap (comment e)) (on_heap (comment e)).
  Proof. apply w_heap; [apply keeping_comment|apply keeping_comment|apply agree_comment]. Qed.

  Ltac fields H := pose proof (f_equal n_type H); pose proof (f_equal n_key H); pose proof (f_equal n_elements H); pose proof (f_equal n_items H);
    pose proof (f_equal n_entries H); pose proof (f_equal n_mirror H); pose proof (f_equal n_extend H); pose proof (f_equal n_parent H);
    cbn [skin n_type n_key n_elements n_items n_entries n_mirror n_extend n_parent] in *;
    repeat match goal with E : _ ?n = _ ?n' |- _ => rewrite <- E; clear E end.
  Ltac w1 := first
    [ apply w_ret | apply w_obj | apply w_hfuel | apply w_ofuel | apply w_oset | apply w_new | apply w_indexed | apply w_lift | apply w_raise
    | apply w_comment | apply w_value; assumption | apply w_raw; assumption
    | match goal with |- twin (mbind (inode _) _) _ => let n := fresh "n" in let n' := fresh "n'" in let H := fresh "T" in apply w_node; intros n n' H; fields H; clear H end
    | match goal with |- twin (mbind get _) _ => let s := fresh "s" in let s' := fresh "s'" in let H := fresh "S" in apply w_get; intros s s' H; unfold oget; rewrite H; clear H end
    | apply w_ctx; intros ? ? ? ? | apply w_mapM; intro | apply w_iterM; intro | apply w_bind; [|intro]
    | match goal with H : forall _, twin _ _ |- _ => apply H end
    | match goal with H : forall _ _, twin _ _ |- _ => apply H end
    | match goal with |- twin (match ?x with _ => _ end) _ => destruct x end ].
  Lemma w_touch o : twin (touch_obj o) (touch_obj o). Proof. apply w_oset. Qed.
  Lemma w_child cl o e : twin (instantiate_child cl o e) (instantiate_child cl o e). Proof. unfold instantiate_child. repeat w1. Qed.
  Lemma w_append o l : twin (append_children o l) (append_children o l). Proof. apply w_oset. Qed.
  Lemma w_els f : forall o e, twin (instantiate_elements f o e) (instantiate_elements f o e).
  Proof. induction f; intros o e; cbn [instantiate_elements]; repeat first [apply w_child|apply w_append|w1]. Qed.
  Lemma w_ents f : forall o e, twin (instantiate_entries f o e) (instantiate_entries f o e).
  Proof. induction f; intros o e; cbn [instantiate_entries]; repeat first [apply w_child|apply w_append|w1]. Qed.
  Lemma w_its f : forall o e, twin (instantiate_items f o e) (instantiate_items f o e).
  Proof. induction f; intros o e; cbn [instantiate_items]; repeat first [apply w_child|apply w_append|w1]. Qed.
  Lemma w_sec o : twin (section_children o) (section_children o). Proof. unfold section_children. repeat first [apply w_els|w1]. Qed.
  Lemma w_fs o : twin (fieldset_children o) (fieldset_children o). Proof. unfold fieldset_children. repeat first [apply w_ents|w1]. Qed.
  Lemma w_li o : twin (list_children o) (list_children o). Proof. unfold list_children. repeat first [apply w_its|w1]. Qed.
  Lemma w_by ch o k : (forall o, twin (ch o) (ch o)) -> twin (by_key ch o k) (by_key ch o k). Proof. intro H. unfold by_key. repeat w1. Qed.
  Ltac fl := first [ now eapply (w_fail _ _ (OtherKind _ _ _)) | now eapply (w_fail _ _ (NoElement _ _ _)) | now eapply (w_fail _ _ (TooMany _ _ _))
    | now eapply (w_fail _ _ (NoValue _)) | now eapply (w_fail _ _ (BadValue _ _)) | now eapply (w_fail _ _ (NoComment _)) | now eapply (w_fail _ _ (BadComment _ _))
    | now eapply (w_fail _ _ (BadKey _ _)) | now eapply (w_fail _ _ (NotExpected _ _)) ].
  Ltac w2 := first [ apply w_sec | apply w_fs | apply w_li | apply w_by; intro | apply w_touch | match goal with |- twin (fail _) _ => fl end | w1 ].
  Lemma w_kind k e : twin (to_kind k e) (to_kind k e).
  Proof. unfold to_kind. repeat w2. Qed.
  Lemma w_query w o k q : twin (query w o k q) (query w o k q).
  Proof. unfold query. repeat first [apply w_kind|w2]. Qed.
  Lemma w_plural kd o k : twin (plural kd o k) (plural kd o k).
  Proof. unfold plural. repeat first [apply w_kind|w2]. Qed.
  Lemma w_entry o k q : twin (entry_query o k q) (entry_query o k q).
  Proof. unfold entry_query. repeat w2. Qed.
  Lemma w_loader {A} (ld : loader A) t err : (forall m, twin (@fail A (err m)) (fail (err m))) -> twin (run_loader ld t err) (run_loader ld t err).
  Proof. intro H. unfold run_loader. destruct (ld t); [apply w_ret|apply H|w2]. Qed.
  Lemma w_value_of {A} o (ld : loader A) q : twin (value_of o ld q) (value_of o ld q).
  Proof. unfold value_of. repeat first [apply w_loader; intro|w2]. Qed.
  Lemma w_comment_of {A} o (ld : loader A) q : twin (comment_of o ld q) (comment_of o ld q).
  Proof. unfold comment_of. repeat first [apply w_loader; intro|w2]. Qed.
  Lemma w_plain o : twin (plain_key o) (plain_key o). Proof. unfold plain_key. repeat w2. Qed.
  Lemma w_key {A} o (ld : loader A) : twin (key_with o ld) (key_with o ld).
  Proof. unfold key_with. repeat first [apply w_plain|apply w_loader; intro|w2]. Qed.
  Lemma w_items o : twin (list_items o) (list_items o). Proof. unfold list_items. repeat w2. Qed.
  Lemma w_values {A} o (ld : loader A) q : twin (list_values o ld q) (list_values o ld q).
  Proof. unfold list_values. repeat first [apply w_items|apply w_value_of|w2]. Qed.
  Lemma w_raw_of o : twin (raw_of o) (raw_of o). Proof. unfold raw_of. repeat w2. Qed.
  Lemma w_missing {A} : forall m, twin (@missing_error A m) (missing_error m).
  Proof. fix IH 1. intros [k key [o|m]]; cbn [missing_error]; [|apply IH]. repeat w2. Qed.
  Lemma w_unleaf ch o : (forall o, twin (ch o) (ch o)) -> twin (untouched_leaf ch o) (untouched_leaf ch o). Proof. intro H. unfold untouched_leaf. repeat w2. Qed.
  Lemma w_first {A} (f : A -> sM (option nat)) : (forall a, twin (f a) (f a)) -> forall l, twin (first_some f l) (first_some f l).
  Proof. intros Hf l. induction l as [|a l IH]; cbn [first_some]; repeat w2. exact IH. Qed.
  Lemma w_untouched f : forall e, twin (untouched_element f e) (untouched_element f e).
  Proof. induction f; intro e; cbn [untouched_element]; repeat first [apply w_unleaf; intro|apply w_first; intro|w2]. Qed.
  Lemma w_assert o m only skip : twin (assert_all_touched o m only skip) (assert_all_touched o m only skip).
  Proof. unfold assert_all_touched. repeat first [apply w_first; intro|apply w_untouched|w2]. Qed.
  Lemma w_fassert o m only skip : twin (fieldset_assert_all_touched o m only skip) (fieldset_assert_all_touched o m only skip).
  Proof. unfold fieldset_assert_all_touched. repeat w2. Qed.
  Lemma w_group ch o : (forall o, twin (ch o) (ch o)) -> twin (touch_group ch o) (touch_group ch o). Proof. intro H. unfold touch_group. repeat w2. Qed.
  Lemma w_slot f x : (forall y, twin (f y) (f y)) -> twin (touch_slot f x) (touch_slot f x). Proof. intro H. unfold touch_slot. repeat w2. Qed.
  Lemma w_touch_el f : forall e, twin (touch_element f e) (touch_element f e).
  Proof. induction f; intro e; cbn [touch_element]; repeat first [apply w_slot; intro|apply w_group; intro|w2]. Qed.
  Lemma w_touch_sec o : twin (touch_section o) (touch_section o). Proof. unfold touch_section. repeat first [apply w_touch_el|w2]. Qed.
  Lemma w_require f : forall o b, twin (require_all f o b) (require_all f o b).
  Proof. induction f; intros o b; cbn [require_all]; unfold all_entries_required; repeat first [apply w_kind|apply w_oset|w2]. Qed.
  Lemma w_parent o : twin (parent_of o) (parent_of o). Proof. unfold parent_of. repeat w2. Qed.
  Lemma w_print o : twin (print_of o) (print_of o). Proof. unfold print_of, print_value. repeat w2. Qed.
  Lemma w_attempt {A} (m : sM A) : twin m m -> twin (attempt m) (attempt m).
  Proof.
    intros H s s' Hs. destruct (H s s' Hs) as [K O]. split; [exact K|]. unfold attempt. cbn [snd]. destruct O as [a|e|v]; try constructor.
    unfold raised. destruct (validation_error c1 v), (validation_error c2 v); constructor.
  Qed.
  Lemma w_throw {A} (f : ctx -> nat -> res eno_error) o (v : nat -> complaint) : (forall c e, f c e = validation_error c (v e)) ->
    let m := let! x := the_obj o in let! c := the_ctx in lift (f c (o_instr x)) in twin (@throw A m) (throw m).
  Proof.
    intro Hf. cbv zeta. assert (forall s, (@throw A (let! x := the_obj o in let! c := the_ctx in lift (f c (o_instr x)))) s = fail (fun c => validation_error c (v (o_instr (oget s o)))) s) as E.
    { intro s. unfold throw, mbind, the_obj, the_ctx, lift, fail. unfold mbind, the_ctx. rewrite Hf. destruct (validation_error _ _); reflexivity. }
    intros s s' H. rewrite !E, (al_get s s' o H). now eapply (w_fail _ _ (v (o_instr (oget s' o)))).
  Qed.
  Theorem program_twin {A} (m : sM A) : program m -> twin m m.
  Proof.
    induction 1; unfold section_elements, fieldset_entries, string_key, touch, all_elements_required, all_entries_required, list_length, missing_query, missing_entry, missing_value, missing_comment, missing_key, missing_list_values;
      try (apply w_bind; assumption); try (now apply w_attempt);
      try (unfold error_of, comment_error_of, key_error_of, value_error_of;
           first [apply (w_throw (fun c e => v_element_error c message e) o (BadElement message))|apply (w_throw (fun c e => v_comment_error c message e) o (BadComment message))
             |apply (w_throw (fun c e => v_key_error c message e) o (BadKey message))|apply (w_throw (fun c e => v_value_error c message e) o (BadValue message))]; reflexivity);
    repeat first [apply w_query|apply w_plural|apply w_kind|apply w_entry|apply w_items|apply w_values|apply w_value_of|apply w_comment_of|apply w_key|apply w_plain|apply w_raw_of|apply w_missing
      |apply w_assert|apply w_fassert|apply w_group; intro|apply w_touch_el|apply w_touch_sec|apply w_require|apply w_parent|apply w_print|w2].
  Qed.
End Twin.
