(** RenamedRun: programs run alike on documents with other keys and other values (lemmas for C61). *)
From Verif Require Import Base Types Messages Resolver Reporter Errors Context Elements Session Faults Silent SpecTree SpecRead SpecApi Reads ApiDoc ApiInv ApiState ErrorCaches ApiOps SessionInv SpecQuery
  Analyzer SpecSaid SaidRun SaidReads SpecProgram SpecRename SpecRenamed RenameRun RenameReads TwinRun.

Definition ren_obj (r : text -> text) (x : obj) : obj :=
  MkObj (o_class x) (o_instr x) (o_parent x) (o_touched x) (o_req x) (o_children x) (ktab r (o_map x)) (o_yielded x) (o_empty x) (o_field x) (o_fieldset x) (o_list x) (o_section x).
Lemma ren_get r (s : st) i : nth i (map (ren_obj r) (s_objs s)) no_obj = ren_obj r (oget s i).
Proof. unfold oget. change no_obj with (ren_obj r no_obj) at 1. apply map_nth. Qed.
Lemma mem_ren r (Hr : renaming r) k l : mem_text (r k) (map r l) = mem_text k l.
Proof. induction l as [|x l IH]; cbn; [reflexivity|]. unfold mem_text in IH. now rewrite (eqb_ren r Hr), IH. Qed.
Lemma skipped_ren r (Hr : renaming r) only skip k : skipped (option_map (map r) only) (option_map (map r) skip) (r k) = skipped only skip k.
Proof.
  unfold skipped. assert (forall l x, mem_text (r k) (r x :: map r l) = mem_text k (x :: l)) as K by (intros l x; exact (mem_ren r Hr k (x :: l))).
  destruct skip as [[|x l]|], only as [[|y l']|]; cbn [option_map map]; rewrite ?K; reflexivity.
Qed.
Lemma kept_ren r (Hr : renaming r) only skip (m : list (text * list nat)) :
  flat_map snd (filter (fun p => negb (skipped only skip (fst p))) m) = flat_map snd (filter (fun p => negb (skipped (option_map (map r) only) (option_map (map r) skip) (fst p))) (ktab r m)).
Proof.
  induction m as [|[k l] m IH]; [reflexivity|]. cbn [ktab map filter fst snd]. rewrite (skipped_ren r Hr). fold (ktab r m). destruct (negb (skipped only skip k)); cbn [flat_map snd]; now rewrite IH.
Qed.

Section Twin.
  Context (c1 c2 : ctx) (r q o : text -> text) (Hr : renaming r) (Hq : renaming q) (Ho : observation o).
  Local Notation d := (c_input c1).
  Local Notation dd := (c_input c2).
  Local Notation near := (near d dd r q o).
  Local Notation nearby := (nearby d dd r q o).
  Definition oalike (x x' : obj) : Prop := ren_obj r x = ren_obj q x'.
  Record alike (s s' : st) : Prop := {
    al_objs : map (ren_obj r) (s_objs s) = map (ren_obj q) (s_objs s'); al_heap : near (c_heap (s_ctx s)) (c_heap (s_ctx s'));
    al_1 : CtxOk (c_heap c1) c1 (s_ctx s); al_2 : CtxOk (c_heap c2) c2 (s_ctx s') }.
  Definition twin {A A'} (R : A -> A' -> Prop) (m : sM A) (m' : sM A') : Prop :=
    forall s s', alike s s' -> alike (fst (m s)) (fst (m' s')) /\ outcomes r q c1 c2 R (snd (m s)) (snd (m' s')).

  Lemma w_ret {A A'} (R : A -> A' -> Prop) a a' : R a a' -> twin R (ret a) (ret a'). Proof. intros HR s s' H. split; [exact H|now constructor]. Qed.
  Lemma w_raise {A A'} (R : A -> A' -> Prop) e : twin R (@raise st A e) (@raise st A' e). Proof. intros s s' H. split; [exact H|constructor]. Qed.
  Lemma w_lift {A} (x : res A) : twin eq (lift x) (lift x). Proof. intros s s' H. split; [exact H|]. cbn. destruct x; now constructor. Qed.
  Lemma w_bind {A A' B B'} (R : A -> A' -> Prop) (Q : B -> B' -> Prop) m m' (f : A -> sM B) (f' : A' -> sM B') : twin R m m' -> (forall a a', R a a' -> twin Q (f a) (f' a')) -> twin Q (mbind m f) (mbind m' f').
  Proof.
    intros Hm Hf s s' H. destruct (Hm s s' H) as [K O]. unfold mbind. destruct (m s) as [s1 r1], (m' s') as [s2 r2]. cbn [fst snd] in *.
    destruct O as [a a' Ha|e|v v' Hv]; [now apply (Hf a a')|split; [exact K|constructor]|].
    pose proof (oc_complaint r q c1 c2 Q v v' Hv) as G. unfold raised in *. destruct (validation_error c1 v), (validation_error c2 v'); (split; [exact K|exact G]).
  Qed.
  Lemma w_bindq {A B B'} (Q : B -> B' -> Prop) (m m' : sM A) (f : A -> sM B) (f' : A -> sM B') : twin eq m m' -> (forall a, twin Q (f a) (f' a)) -> twin Q (mbind m f) (mbind m' f').
  Proof. intros Hm Hf. eapply w_bind; [exact Hm|]. intros a ? <-. apply Hf. Qed.
  Lemma w_mapMR {A B B'} (R : B -> B' -> Prop) (f : A -> sM B) (f' : A -> sM B') l : (forall a, twin R (f a) (f' a)) -> twin (Forall2 R) (mapM f l) (mapM f' l).
  Proof.
    intro H. induction l as [|a l IH]; cbn [mapM]; [apply w_ret; constructor|]. eapply w_bind; [apply H|]. intros y y' Hy. eapply w_bind; [exact IH|]. intros ys ys' Hys. apply w_ret. now constructor.
  Qed.
  Lemma w_mapM {A B} (f f' : A -> sM B) l : (forall a, twin eq (f a) (f' a)) -> twin eq (mapM f l) (mapM f' l).
  Proof.
    intro H. induction l as [|a l IH]; cbn [mapM]; [now apply w_ret|]. apply w_bindq; [apply H|]. intro y. apply w_bindq; [exact IH|]. intro ys. now apply w_ret.
  Qed.
  Lemma w_iterM {A} (f f' : A -> sM unit) l : (forall a, twin eq (f a) (f' a)) -> twin eq (iterM f l) (iterM f' l).
  Proof. intro H. induction l as [|a l IH]; cbn [iterM]; [now apply w_ret|]. apply w_bindq; [apply H|]. intro. exact IH. Qed.
  Lemma al_get s s' i : alike s s' -> oalike (oget s i) (oget s' i).
  Proof. intro H. unfold oalike. rewrite <- !ren_get. now rewrite (al_objs _ _ H). Qed.
  Lemma w_obj {A A'} (R : A -> A' -> Prop) i (f : obj -> sM A) (f' : obj -> sM A') : (forall x x', oalike x x' -> twin R (f x) (f' x')) -> twin R (mbind (the_obj i) f) (mbind (the_obj i) f').
  Proof. intros Hf s s' H. unfold mbind, the_obj. apply Hf; [now apply al_get|exact H]. Qed.
  Lemma w_oset i f f' : (forall x x', oalike x x' -> oalike (f x) (f' x')) -> twin eq (oset i f) (oset i f').
  Proof.
    intros Hf s s' [H1 H2 H3 H4]. split; [|now constructor]. split; cbn; try assumption. revert H1. generalize (s_objs s) (s_objs s'). clear H2 H3 H4 s s'.
    induction i as [|i IH]; intros [|x l] [|x' l'] H; try discriminate; try reflexivity; cbn in *; assert (ren_obj r x = ren_obj q x' /\ map (ren_obj r) l = map (ren_obj q) l') as [K1 K2] by (split; congruence).
    - f_equal; [now apply Hf|assumption].
    - f_equal; auto.
  Qed.
  Lemma al_length s s' : alike s s' -> length (s_objs s) = length (s_objs s').
  Proof. intro H. rewrite <- (map_length (ren_obj r) (s_objs s)), (al_objs _ _ H). apply map_length. Qed.
  Lemma w_new cl e p : twin eq (new_obj cl e p) (new_obj cl e p).
  Proof.
    intros s s' H. pose proof H as [H1 H2 H3 H4]. unfold new_obj, alloc. cbn [fst snd].
    assert (match cl, p with (CSection | CFieldset), Some y => o_req (oget s y) | _, _ => false end = match cl, p with (CSection | CFieldset), Some y => o_req (oget s' y) | _, _ => false end) as ->.
    { destruct cl, p as [y|]; try reflexivity; exact (f_equal o_req (al_get s s' y H)). }
    rewrite (al_length s s' H). split; [split; cbn; try assumption|now constructor]. rewrite !map_app. cbn. now rewrite H1.
  Qed.
  Lemma w_hfuel : twin eq hfuel hfuel.
  Proof. intros s s' H. split; [exact H|]. cbn. rewrite (near_length _ _ _ _ _ _ _ (al_heap _ _ H)). now constructor. Qed.
  Lemma w_ofuel : twin eq ofuel ofuel.
  Proof. intros s s' H. split; [exact H|]. cbn. rewrite (al_length _ _ H). now constructor. Qed.
  Lemma assoc_two {A} k k' (l l' : list (text * A)) : r k = q k' -> ktab r l = ktab q l' -> assoc k l = assoc k' l'.
  Proof. intros Ek El. now rewrite <- (assoc_ktab r Hr k l), Ek, El, (assoc_ktab q Hq). Qed.
  Lemma w_indexed i l : twin eq (not_indexed i l) (not_indexed i l).
  Proof.
    intros s s' H. split; [exact H|]. unfold not_indexed. cbn [snd].
    rewrite (filter_ext _ (fun e => negb (opt_is (assoc (key_of (c_heap (s_ctx s')) e) (o_map (oget s' i)))))); [now constructor|].
    intro e. do 2 f_equal. apply assoc_two; [now apply (near_key d dd r q o Hr Hq), al_heap|]. exact (f_equal o_map (al_get s s' i H)).
  Qed.
  Lemma w_node {A A'} (R : A -> A' -> Prop) e (f : node -> sM A) (f' : node -> sM A') : (forall n n', nearby n n' -> twin R (f n) (f' n')) -> twin R (mbind (inode e) f) (mbind (inode e) f').
  Proof. intros Hf s s' H. unfold mbind, inode. apply Hf; [|exact H]. now apply near_get, al_heap. Qed.
  Lemma w_get {A A'} (R : A -> A' -> Prop) (f : st -> sM A) (f' : st -> sM A') : (forall s s', (forall i, oalike (oget s i) (oget s' i)) -> twin R (f s) (f' s')) -> twin R (mbind get f) (mbind get f').
  Proof. intros Hf s s' H. unfold mbind, get. apply Hf; [|exact H]. intro i. now apply al_get. Qed.
  Lemma w_ctx {A A'} (R : A -> A' -> Prop) (k : ctx -> sM A) (k' : ctx -> sM A') : (forall c c', c_input c = d -> c_input c' = dd -> twin R (k c) (k' c')) -> twin R (mbind the_ctx k) (mbind the_ctx k').
  Proof. intros Hk s s' H. unfold mbind, the_ctx. apply Hk; [| |exact H]; destruct H as [_ _ [E _] [E' _]]; [rewrite E|rewrite E']; reflexivity. Qed.
  Lemma w_heap {A} (R : A -> A -> Prop) (m m' : hM A) : keeping d (c_heap c1) m -> keeping dd (c_heap c2) m' -> agr d dd r q o R m m' -> twin R (on_heap m) (on_heap m').
  Proof.
    intros K1 K2 Ha s s' [H1 H2 [C1 C2] [C1' C2']]. destruct (Ha _ _ H2) as [G1 G2]. unfold on_heap.
    destruct (m (c_heap (s_ctx s))) as [h x] eqn:E, (m' (c_heap (s_ctx s'))) as [h' x'] eqn:E'. cbn [fst snd] in *. split; [|destruct x, x'; cbn [rel] in G2; try contradiction; [now constructor|subst; constructor]].
    split; cbn; [exact H1|exact G1| |].
    - split; cbn; [now rewrite C1|exact (K1 _ _ _ C2 E)].
    - split; cbn; [now rewrite C1'|exact (K2 _ _ _ C2' E')].
  Qed.
  Lemma w_fail {A A'} (R : A -> A' -> Prop) f f' v v' : complaint_as r v = complaint_as q v' -> (forall c, f c = validation_error c v) -> (forall c, f' c = validation_error c v') -> twin R (@fail A f) (@fail A' f').
  Proof.
    intros Hv Hf Hf' s s' H. unfold fail, mbind, the_ctx. rewrite Hf, Hf', (error_is c1 _ v (al_1 _ _ H)), (error_is c2 _ v' (al_2 _ _ H)).
    pose proof (oc_complaint r q c1 c2 R v v' Hv) as G. unfold raised in G. destruct (validation_error c1 v), (validation_error c2 v'); (split; [exact H|exact G]).
  Qed.
  Lemma w_value f e c c' : c_input c = d -> c_input c' = dd -> twin (near_text o) (on_heap (value (c_input c) f e)) (on_heap (value (c_input c') f e)).
  Proof. intros -> ->. apply w_heap; [apply keeping_value|apply keeping_value|now apply agr_value]. Qed.
  Lemma w_raw f e c c' : c_input c = d -> c_input c' = dd -> twin (near_raw r q o) (on_heap (raw (c_input c) f e)) (on_heap (raw (c_input c') f e)).
  Proof. intros -> ->. apply w_heap; [apply keeping_raw|apply keeping_raw|now apply agr_raw]. Qed.
  Lemma w_comment e : twin eq (on_heap (comment e)) (on_heap (comment e)).
  Proof. apply w_heap; [apply keeping_comment|apply keeping_comment|now apply agr_comment]. Qed.
  Lemma w_keyof n n' : nearby n n' -> twin (names r q) (lift (key_or (n_key n))) (lift (key_or (n_key n'))).
  Proof.
    intros H s s' Hs. split; [exact Hs|]. pose proof (f_equal n_key H) as E. cbn [cast skin n_key] in E. destruct (n_key n), (n_key n'); try discriminate; cbn; constructor. injection E as E. exact E.
  Qed.
  Lemma nb_type n n' : nearby n n' -> n_type n' = n_type n. Proof. intro H. symmetry. exact (f_equal n_type H). Qed.
  Lemma nb_elements n n' : nearby n n' -> n_elements n' = n_elements n. Proof. intro H. symmetry. exact (f_equal n_elements H). Qed.
  Lemma nb_items n n' : nearby n n' -> n_items n' = n_items n. Proof. intro H. symmetry. exact (f_equal n_items H). Qed.
  Lemma nb_entries n n' : nearby n n' -> n_entries n' = n_entries n. Proof. intro H. symmetry. exact (f_equal n_entries H). Qed.
  Lemma nb_mirror n n' : nearby n n' -> n_mirror n' = n_mirror n. Proof. intro H. symmetry. exact (f_equal n_mirror H). Qed.
  Lemma nb_extend n n' : nearby n n' -> n_extend n' = n_extend n. Proof. intro H. symmetry. exact (f_equal n_extend H). Qed.
  Lemma nb_parent n n' : nearby n n' -> n_parent n' = n_parent n. Proof. intro H. symmetry. exact (f_equal n_parent H). Qed.
  Lemma oa_class x x' : oalike x x' -> o_class x' = o_class x. Proof. intro H. symmetry. exact (f_equal o_class H). Qed.
  Lemma oa_instr x x' : oalike x x' -> o_instr x' = o_instr x. Proof. intro H. symmetry. exact (f_equal o_instr H). Qed.
  Lemma oa_parent x x' : oalike x x' -> o_parent x' = o_parent x. Proof. intro H. symmetry. exact (f_equal o_parent H). Qed.
  Lemma oa_touched x x' : oalike x x' -> o_touched x' = o_touched x. Proof. intro H. symmetry. exact (f_equal o_touched H). Qed.
  Lemma oa_req x x' : oalike x x' -> o_req x' = o_req x. Proof. intro H. symmetry. exact (f_equal o_req H). Qed.
  Lemma oa_children x x' : oalike x x' -> o_children x' = o_children x. Proof. intro H. symmetry. exact (f_equal o_children H). Qed.
  Lemma oa_yielded x x' : oalike x x' -> o_yielded x' = o_yielded x. Proof. intro H. symmetry. exact (f_equal o_yielded H). Qed.
  Lemma oa_empty x x' : oalike x x' -> o_empty x' = o_empty x. Proof. intro H. symmetry. exact (f_equal o_empty H). Qed.
  Lemma oa_field x x' : oalike x x' -> o_field x' = o_field x. Proof. intro H. symmetry. exact (f_equal o_field H). Qed.
  Lemma oa_fieldset x x' : oalike x x' -> o_fieldset x' = o_fieldset x. Proof. intro H. symmetry. exact (f_equal o_fieldset H). Qed.
  Lemma oa_list x x' : oalike x x' -> o_list x' = o_list x. Proof. intro H. symmetry. exact (f_equal o_list H). Qed.
  Lemma oa_section x x' : oalike x x' -> o_section x' = o_section x. Proof. intro H. symmetry. exact (f_equal o_section H). Qed.
  Lemma oa_map x x' : oalike x x' -> ktab r (o_map x) = ktab q (o_map x'). Proof. intro H. exact (f_equal o_map H). Qed.
  Ltac nf H := rewrite ?(nb_type _ _ H), ?(nb_elements _ _ H), ?(nb_items _ _ H), ?(nb_entries _ _ H), ?(nb_mirror _ _ H), ?(nb_extend _ _ H), ?(nb_parent _ _ H).
  Ltac of H := rewrite ?(oa_class _ _ H), ?(oa_instr _ _ H), ?(oa_parent _ _ H), ?(oa_touched _ _ H), ?(oa_req _ _ H), ?(oa_children _ _ H), ?(oa_yielded _ _ H),
    ?(oa_empty _ _ H), ?(oa_field _ _ H), ?(oa_fieldset _ _ H), ?(oa_list _ _ H), ?(oa_section _ _ H).
  Ltac ext := intros ?x ?x' ?X; unfold oalike, ren_obj, with_touched, with_req, with_children, with_yield; cbn [o_class o_instr o_parent o_touched o_req o_children o_map o_yielded o_empty o_field o_fieldset o_list o_section];
    match goal with X : oalike _ _ |- _ => of X; rewrite ?(oa_map _ _ X); reflexivity end.
  Ltac w1 := first
    [ apply w_ret; first [reflexivity|assumption] | apply w_hfuel | apply w_ofuel | apply w_oset; ext | apply w_new | apply w_indexed | apply w_keyof; assumption | apply w_lift | apply w_raise | apply w_comment
    | match goal with |- twin _ (mbind (inode _) _) _ => let n := fresh "n" in let n' := fresh "n'" in let H := fresh "T" in apply w_node; intros n n' H; nf H end
    | match goal with |- twin _ (mbind (the_obj _) _) _ => let n := fresh "x" in let n' := fresh "x'" in let H := fresh "X" in apply w_obj; intros n n' H; of H end
    | match goal with T : nearby ?n ?n' |- twin _ (mbind (lift (key_or (n_key ?n))) _) _ => eapply w_bind; [apply w_keyof; exact T|]; let k := fresh "k" in let k' := fresh "k'" in let H := fresh "N" in intros k k' H end
    | apply w_ctx; intros ? ? ? ? | apply w_mapM; intro | apply w_iterM; intro | apply w_bindq; [|intro]
    | match goal with H : forall _, twin _ _ _ |- _ => apply H end
    | match goal with H : forall _ _, twin _ _ _ |- _ => apply H end
    | match goal with |- twin _ (match ?x with _ => _ end) _ => destruct x end ].
  Lemma w_touch i : twin eq (touch_obj i) (touch_obj i). Proof. apply w_oset. ext. Qed.
  Lemma w_child cl i e : twin eq (instantiate_child cl i e) (instantiate_child cl i e).
  Proof.
    unfold instantiate_child. apply w_bindq; [apply w_new|]. intro y. apply w_node. intros n n' T. eapply w_bind; [apply w_keyof; exact T|]. intros k k' N. apply w_bindq; [|intro; now apply w_ret].
    apply w_oset. intros x x' X. unfold oalike, ren_obj. cbn [o_class o_instr o_parent o_touched o_req o_children o_map o_yielded o_empty o_field o_fieldset o_list o_section]. of X.
    rewrite <- (upd_ktab r Hr), <- (upd_ktab q Hq), (oa_map _ _ X). red in N. now rewrite N.
  Qed.
  Lemma w_append i l : twin eq (append_children i l) (append_children i l). Proof. apply w_oset. ext. Qed.
  Lemma w_els f : forall i e, twin eq (instantiate_elements f i e) (instantiate_elements f i e).
  Proof. induction f; intros i e; cbn [instantiate_elements]; repeat first [apply w_child|apply w_append|w1]. Qed.
  Lemma w_ents f : forall i e, twin eq (instantiate_entries f i e) (instantiate_entries f i e).
  Proof. induction f; intros i e; cbn [instantiate_entries]; repeat first [apply w_child|apply w_append|w1]. Qed.
  Lemma w_its f : forall i e, twin eq (instantiate_items f i e) (instantiate_items f i e).
  Proof. induction f; intros i e; cbn [instantiate_items]; repeat first [apply w_child|apply w_append|w1]. Qed.
  Lemma w_sec i : twin eq (section_children i) (section_children i). Proof. unfold section_children. repeat first [apply w_els|w1]. Qed.
  Lemma w_fs i : twin eq (fieldset_children i) (fieldset_children i). Proof. unfold fieldset_children. repeat first [apply w_ents|w1]. Qed.
  Lemma w_li i : twin eq (list_children i) (list_children i). Proof. unfold list_children. repeat first [apply w_its|w1]. Qed.
  Lemma ren_nil f (Hf : renaming f) k : f k = [] -> k = []. Proof. intro E. apply Hf. now rewrite E, (proj1 Hf). Qed.
  Lemma w_by ch i k k' : asks r q k k' -> (forall i, twin eq (ch i) (ch i)) -> twin eq (by_key ch i k) (by_key ch i k').
  Proof.
    intros HK H. unfold by_key. red in HK. destruct k as [k|], k' as [k'|]; try discriminate; [|apply H]. cbn [option_map] in HK. assert (r k = q k') as N by congruence. clear HK.
    destruct k as [|a k], k' as [|a' k'].
    - apply H.
    - rewrite (proj1 Hr) in N. symmetry in N. apply (ren_nil q Hq) in N. discriminate.
    - rewrite (proj1 Hq) in N. apply (ren_nil r Hr) in N. discriminate.
    - apply w_bindq; [apply H|]. intro. apply w_obj. intros x x' X. rewrite (assoc_two _ _ _ _ N (oa_map _ _ X)). now apply w_ret.
  Qed.
  Ltac fin_ := [> |intro; reflexivity|intro; reflexivity]; cbn [complaint_as]; first [reflexivity|match goal with H : asks _ _ _ _ |- _ => red in H; rewrite H; reflexivity end].
  Ltac fl := first [ (eapply (w_fail _ _ _ (OtherKind _ _ _) (OtherKind _ _ _)); fin_)
    | (eapply (w_fail _ _ _ (NoElement _ _ _) (NoElement _ _ _)); fin_)
    | (eapply (w_fail _ _ _ (TooMany _ _ _) (TooMany _ _ _)); fin_)
    | (eapply (w_fail _ _ _ (NoValue _) (NoValue _)); fin_)
    | (eapply (w_fail _ _ _ (BadValue _ _) (BadValue _ _)); fin_)
    | (eapply (w_fail _ _ _ (NoComment _) (NoComment _)); fin_)
    | (eapply (w_fail _ _ _ (BadComment _ _) (BadComment _ _)); fin_)
    | (eapply (w_fail _ _ _ (BadKey _ _) (BadKey _ _)); fin_)
    | (eapply (w_fail _ _ _ (NotExpected _ _) (NotExpected _ _)); fin_) ].
  Ltac w2 := first [ apply w_sec | apply w_fs | apply w_li | apply w_by; [assumption|intro] | apply w_touch | match goal with |- twin _ (fail _) _ => fl end | w1 ].
  Lemma oa_slot k x x' : oalike x x' -> yield_slot k x' = yield_slot k x. Proof. intro H. destruct k; cbn [yield_slot]; now of H. Qed.
  Lemma w_kind k e : twin eq (to_kind k e) (to_kind k e).
  Proof.
    unfold to_kind. apply w_obj. intros x x' X. rewrite (oa_slot k x x' X). of X. repeat w2.
  Qed.
  Lemma instrs s s' (H : forall i, oalike (oget s i) (oget s' i)) l : map (fun e => o_instr (oget s' e)) l = map (fun e => o_instr (oget s e)) l.
  Proof. apply map_ext. intro i. apply (oa_instr _ _ (H i)). Qed.
  Lemma finds s s' (H : forall i, oalike (oget s i) (oget s' i)) l : find (fun i => negb (o_touched (oget s' i))) l = find (fun i => negb (o_touched (oget s i))) l.
  Proof. induction l as [|i l IH]; cbn [find]; [reflexivity|]. now rewrite (oa_touched _ _ (H i)), IH. Qed.
  Ltac w3 := first [apply w_kind | match goal with |- twin _ (mbind get _) _ => let s := fresh "s" in let s' := fresh "s'" in let H := fresh "S" in apply w_get; intros s s' H; rewrite ?(instrs _ _ H), ?(finds _ _ H) end | w2].
  Local Notation founds := (fun f f' => found_as r f = found_as q f').
  Lemma found_missing k key key' p : asks r q key key' -> found_as r (FMissing (Missing k key (PObject p))) = found_as q (FMissing (Missing k key' (PObject p))).
  Proof. intro H. cbn. red in H. now rewrite H. Qed.
  Lemma w_query w i k k' b : asks r q k k' -> twin founds (query w i k b) (query w i k' b).
  Proof.
    intro HK. unfold query. apply w_bindq; [apply w_touch|intro]. apply w_bindq; [apply w_by; [assumption|apply w_sec]|]. intros [|e [|e2 els]].
    - apply w_obj. intros x x' X. of X. destruct (_ || _)%bool; [w2|]. destruct b; apply w_ret; [reflexivity|now apply found_missing].
    - apply w_obj. intros x x' X. destruct w; [|now apply w_ret]. apply w_obj. intros y y' Y. of Y. apply w_node. intros n n' T. nf T. destruct (accepts _ _); [|w2]. apply w_bindq; [apply w_kind|]. intro. now apply w_ret.
    - apply w_obj. intros x x' X. w3. w3.
  Qed.
  Lemma w_plural kd i k k' : asks r q k k' -> twin eq (plural kd i k) (plural kd i k').
  Proof. intro HK. unfold plural. repeat w3. Qed.
  Lemma w_entry i k k' b : asks r q k k' -> twin founds (entry_query i k b) (entry_query i k' b).
  Proof.
    intro HK. unfold entry_query. apply w_bindq; [apply w_touch|intro]. apply w_bindq; [apply w_by; [assumption|apply w_fs]|]. intros [|e [|e2 els]].
    - apply w_obj. intros x x' X. of X. destruct (_ || _)%bool; [w2|]. destruct b; apply w_ret; [reflexivity|now apply found_missing].
    - apply w_obj. intros x x' X. now apply w_ret.
    - apply w_obj. intros x x' X. w3. w3.
  Qed.
  Lemma w_loader {A A'} (R : A -> A' -> Prop) (ld : loader A) (ld' : loader A') t t' err : loaded_alike R (ld t) (ld' t') -> (forall m, twin R (@fail A (err m)) (@fail A' (err m))) ->
    twin R (run_loader ld t err) (run_loader ld' t' err).
  Proof. intros HL H. unfold run_loader. destruct HL; [now apply w_ret|apply H|apply w_raise]. Qed.
  Lemma w_value_of {A A'} (R : A -> A' -> Prop) i (ld : loader A) (ld' : loader A') b : (forall t t', reads o t t' -> loaded_alike R (ld t) (ld' t')) -> twin (maybe R) (value_of i ld b) (value_of i ld' b).
  Proof.
    intro HL. unfold value_of. apply w_bindq; [apply w_touch|intro]. apply w_obj. intros x x' X. of X. apply w_ctx. intros c c' E E'. apply w_bindq; [apply w_hfuel|intro].
    eapply w_bind; [now apply w_value|]. intros v v' V. red in V. destruct v as [t|], v' as [t'|]; try discriminate.
    - eapply w_bind; [apply (w_loader R); [apply HL; red; cbn in V; congruence|intro; w2]|]. intros. apply w_ret. now constructor.
    - destruct b; [w2|]. apply w_ret. constructor.
  Qed.
  Lemma w_comment_of {A A'} (R : A -> A' -> Prop) i (ld : loader A) (ld' : loader A') b : (forall t, loaded_alike R (ld t) (ld' t)) -> twin (maybe R) (comment_of i ld b) (comment_of i ld' b).
  Proof.
    intro HL. unfold comment_of. apply w_bindq; [apply w_touch|intro]. apply w_obj. intros x x' X. of X. apply w_bindq; [apply w_comment|]. intros [[|ch t]|].
    - destruct b; [w2|]. apply w_ret. constructor.
    - eapply w_bind; [apply (w_loader R); [apply HL|intro; w2]|]. intros. apply w_ret. now constructor.
    - destruct b; [w2|]. apply w_ret. constructor.
  Qed.
  Lemma w_plain i : twin (names r q) (plain_key i) (plain_key i). Proof. unfold plain_key. repeat w2. Qed.
  Lemma w_key {A A'} (R : A -> A' -> Prop) i (ld : loader A) (ld' : loader A') : (forall k k', names r q k k' -> loaded_alike R (ld k) (ld' k')) -> twin R (key_with i ld) (key_with i ld').
  Proof.
    intro HL. unfold key_with. apply w_bindq; [apply w_touch|intro]. apply w_obj. intros x x' X. of X. eapply w_bind; [apply w_plain|]. intros k k' N. apply (w_loader R); [now apply HL|]. intro. w2.
  Qed.
  Lemma w_items i : twin eq (list_items i) (list_items i). Proof. unfold list_items. repeat w2. Qed.
  Lemma w_values {A A'} (R : A -> A' -> Prop) i (ld : loader A) (ld' : loader A') b : (forall t t', reads o t t' -> loaded_alike R (ld t) (ld' t')) ->
    twin (Forall2 (maybe R)) (list_values i ld b) (list_values i ld' b).
  Proof. intro HL. unfold list_values. apply w_bindq; [apply w_items|]. intro l. apply w_mapMR. intro. now apply w_value_of. Qed.
  Lemma w_raw_of i : twin (near_raw r q o) (raw_of i) (raw_of i).
  Proof. unfold raw_of. apply w_obj. intros x x' X. of X. apply w_ctx. intros c c' E E'. apply w_bindq; [apply w_hfuel|intro]. now apply w_raw. Qed.
  Lemma w_missing {A A'} (R : A -> A' -> Prop) : forall m m', missing_as r m = missing_as q m' -> twin R (@missing_error A m) (@missing_error A' m').
  Proof.
    fix IH 1. intros [k key [i|m]] [k' key' [i'|m']] E; cbn [missing_as] in E; try discriminate; cbn [missing_error]; [|apply IH; congruence].
    assert (k' = k /\ asks r q key key' /\ i' = i) as (-> & HK & ->) by (unfold asks; repeat split; congruence). repeat w2.
  Qed.
  Lemma w_unleaf ch i : (forall i, twin eq (ch i) (ch i)) -> twin eq (untouched_leaf ch i) (untouched_leaf ch i).
  Proof.
    intro H. unfold untouched_leaf. apply w_obj. intros x x' X. of X. destruct (o_touched x); [|w1]. apply w_bindq; [apply H|]. intro l. w3. destruct (find _ l); [|w1]. of (S n). w1.
  Qed.
  Lemma w_first {A} (f : A -> sM (option nat)) : (forall a, twin eq (f a) (f a)) -> forall l, twin eq (first_some f l) (first_some f l).
  Proof. intros Hf l. induction l as [|a l IH]; cbn [first_some]; repeat w2. exact IH. Qed.
  Lemma w_untouched f : forall e, twin eq (untouched_element f e) (untouched_element f e).
  Proof.
    induction f as [|f IH]; intro e; cbn [untouched_element]; [w1|]. apply w_obj. intros x x' X. of X. apply w_get. intros s s' S.
    destruct (o_yielded x); [|w1].
    replace (match o_empty x with Some y => negb (o_touched (oget s' y)) | None => false end) with (match o_empty x with Some y => negb (o_touched (oget s y)) | None => false end)
      by (destruct (o_empty x) as [y|]; [now of (S y)|reflexivity]).
    replace (match o_field x with Some y => negb (o_touched (oget s' y)) | None => false end) with (match o_field x with Some y => negb (o_touched (oget s y)) | None => false end)
      by (destruct (o_field x) as [y|]; [now of (S y)|reflexivity]).
    repeat first [apply w_unleaf; intro|apply w_first; intro|w2].
  Qed.
  Lemma kept_two only only' skip skip' m m' : filters r q only only' -> filters r q skip skip' -> ktab r m = ktab q m' ->
    flat_map snd (filter (fun p => negb (skipped only' skip' (fst p))) m') = flat_map snd (filter (fun p : text * list nat => negb (skipped only skip (fst p))) m).
  Proof. intros H1 H2 H3. red in H1, H2. now rewrite (kept_ren q Hq), (kept_ren r Hr only), H1, H2, H3. Qed.
  Lemma w_assert i m only only' skip skip' : filters r q only only' -> filters r q skip skip' -> twin eq (assert_all_touched i m only skip) (assert_all_touched i m only' skip').
  Proof.
    intros H1 H2. unfold assert_all_touched. apply w_bindq; [apply w_sec|intro]. apply w_obj. intros x x' X. apply w_bindq; [apply w_ofuel|intro].
    cbv zeta. rewrite (kept_two _ _ _ _ _ _ H1 H2 (oa_map _ _ X)). repeat first [apply w_first; intro|apply w_untouched|w2].
  Qed.
  Lemma w_fassert i m only only' skip skip' : filters r q only only' -> filters r q skip skip' -> twin eq (fieldset_assert_all_touched i m only skip) (fieldset_assert_all_touched i m only' skip').
  Proof.
    intros H1 H2. unfold fieldset_assert_all_touched. apply w_bindq; [apply w_fs|intro]. apply w_obj. intros x x' X. cbv zeta. w3.
    rewrite (kept_two _ _ _ _ _ _ H1 H2 (oa_map _ _ X)). repeat w2.
  Qed.
  Lemma w_group ch i : (forall i, twin eq (ch i) (ch i)) -> twin eq (touch_group ch i) (touch_group ch i). Proof. intro H. unfold touch_group. repeat w2. Qed.
  Lemma w_slot f x : (forall y, twin eq (f y) (f y)) -> twin eq (touch_slot f x) (touch_slot f x). Proof. intro H. unfold touch_slot. repeat w2. Qed.
  Lemma w_touch_el f : forall e, twin eq (touch_element f e) (touch_element f e).
  Proof. induction f; intro e; cbn [touch_element]; repeat first [apply w_slot; intro|apply w_group; intro|w2]. Qed.
  Lemma w_touch_sec i : twin eq (touch_section i) (touch_section i). Proof. unfold touch_section. repeat first [apply w_touch_el|w2]. Qed.
  Lemma w_require f : forall i b, twin eq (require_all f i b) (require_all f i b).
  Proof. induction f; intros i b; cbn [require_all]; unfold all_entries_required; repeat w3. Qed.
  Lemma w_parent i : twin eq (parent_of i) (parent_of i). Proof. unfold parent_of. repeat w2. Qed.
  Lemma w_weak {A A'} (R Q : A -> A' -> Prop) m m' : (forall a a', R a a' -> Q a a') -> twin R m m' -> twin Q m m'.
  Proof. intros HI H s s' Hs. destruct (H s s' Hs) as [K O]. split; [exact K|]. destruct O; constructor; auto. Qed.
  Local Notation any := (fun _ _ => True).
  Lemma w_printv i : twin any (print_value i) (print_value i).
  Proof. unfold print_value. apply w_obj. intros x x' X. of X. apply w_ctx. intros c c' E E'. apply w_bindq; [apply w_hfuel|intro]. eapply w_bind; [now apply w_value|]. intros. now apply w_ret. Qed.
  Lemma w_print i : twin any (print_of i) (print_of i).
  Proof.
    unfold print_of. repeat first [match goal with |- twin _ (ret _) _ => now apply w_ret end | match goal with |- twin _ (mbind (print_value _) _) _ => eapply w_bind; [apply w_printv|]; intros ? ? _ end | w2].
  Qed.
  Lemma w_attempt {A A'} (R : A -> A' -> Prop) (m : sM A) (m' : sM A') : twin R m m' -> twin (maybe R) (attempt m) (attempt m').
  Proof.
    intros H s s' Hs. destruct (H s s' Hs) as [K O]. split; [exact K|]. unfold attempt. cbn [snd]. destruct O as [a a' Ha|e|v v' Hv]; try (repeat constructor; assumption).
    unfold raised. destruct (validation_error c1 v), (validation_error c2 v'); repeat constructor.
  Qed.
  Lemma w_throw {A A'} (R : A -> A' -> Prop) (f : ctx -> nat -> res eno_error) i (v : nat -> complaint) : (forall c e, f c e = validation_error c (v e)) -> (forall e, complaint_as r (v e) = complaint_as q (v e)) ->
    let m := let! x := the_obj i in let! c := the_ctx in lift (f c (o_instr x)) in twin R (@throw A m) (@throw A' m).
  Proof.
    intros Hf Hv. cbv zeta. assert (forall B s, (@throw B (let! x := the_obj i in let! c := the_ctx in lift (f c (o_instr x)))) s = fail (fun c => validation_error c (v (o_instr (oget s i)))) s) as E.
    { intros B s. unfold throw, mbind, the_obj, the_ctx, lift, fail. unfold mbind, the_ctx. rewrite Hf. destruct (validation_error _ _); reflexivity. }
    intros s s' H. rewrite !E, (oa_instr _ _ (al_get s s' i H)). now eapply (w_fail R _ _ (v (o_instr (oget s i))) (v (o_instr (oget s i)))).
  Qed.
  Theorem paired_twin {A A'} (R : A -> A' -> Prop) m m' : paired r q o R m m' -> twin R m m'.
  Proof.
    induction 1.
    - now apply w_ret.
    - apply w_raise.
    - eapply w_bind; eassumption.
    - now apply w_attempt.
    - now apply w_query.
    - unfold section_elements. repeat w2.
    - now apply w_plural.
    - apply w_kind.
    - now apply w_entry.
    - unfold fieldset_entries. repeat w2.
    - apply w_items.
    - unfold list_length. apply w_bindq; [apply w_items|]. intro. now apply w_ret.
    - now apply w_values.
    - now apply w_value_of.
    - now apply w_comment_of.
    - now apply w_key.
    - unfold string_key. apply w_bindq; [apply w_touch|]. intro. apply w_plain.
    - apply w_raw_of.
    - unfold missing_query. destruct required as [[|]|]; [now apply w_missing|now apply w_ret|]. apply w_ret. cbn. red in H0. cbn [missing_as]. now rewrite H0, H.
    - unfold missing_entry. destruct required as [[|]|]; [now apply w_missing|now apply w_ret|]. apply w_ret. cbn. red in H0. now rewrite H0, H.
    - unfold missing_value. destruct required; [now apply w_missing|now apply w_ret].
    - unfold missing_comment. destruct required; [now apply w_missing|now apply w_ret].
    - now apply w_missing.
    - now apply w_assert.
    - now apply w_fassert.
    - unfold touch. apply w_obj. intros y y' Y. of Y. destruct (o_class y); repeat first [apply w_group; intro|apply w_touch_el|apply w_touch_sec|w2].
    - unfold all_elements_required. apply w_bindq; [apply w_ofuel|]. intro. apply w_require.
    - unfold all_entries_required. apply w_oset. ext.
    - apply w_parent.
    - apply w_print.
    - apply (w_throw R (fun c e => v_element_error c message e) x (BadElement message)); reflexivity.
    - apply (w_throw R (fun c e => v_comment_error c message e) x (BadComment message)); reflexivity.
    - apply (w_throw R (fun c e => v_key_error c message e) x (BadKey message)); reflexivity.
    - apply (w_throw R (fun c e => v_value_error c message e) x (BadValue message)); reflexivity.
  Qed.
End Twin.
