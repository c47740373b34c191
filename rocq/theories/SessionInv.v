(** SessionInv: every state of a session is consistent with the document. *)
From Verif Require Import Base Types Messages Resolver Reporter Errors Context Elements SpecTree SpecRead SpecApi Reads ErrorCaches ApiDoc ApiInv ApiState ApiOps Session.

Section Inv.
  Context (c0 : ctx) (HD : Doc (c_heap c0)).
  Let r := c_heap c0.
  Let inp := c_input c0.
  Notation Inv := (Inv c0).
  Notation ok := (ok c0).
  Notation ok_bind := (ok_bind c0).

  Lemma kid_valid s o l y : Inv s -> o < length (s_objs s) -> o_children (oget s o) = Some l -> In y l ->
    valid s y (child_class (o_class (oget s o))) /\ o_parent (oget s y) = Some o /\ o < y.
  Proof.
    intros HI Ho Hl Hy. pose proof (ki_each _ _ _ _ _ (oo_kids _ _ _ _ (iv_obj _ _ HI o Ho) l Hl)) as H. rewrite Forall_forall in H.
    destruct (H y Hy) as (A1 & A2 & A3). repeat split; try assumption; lia.
  Qed.
  Lemma ok_obj o s : Inv s -> ok (the_obj o) s. Proof. intro. now apply ok_still. Qed.
  Lemma ok_get s : Inv s -> ok get s. Proof. intro. now apply ok_still. Qed.
  Lemma ok_inode e s : Inv s -> ok (inode e) s. Proof. intro. now apply ok_still. Qed.
  Lemma ok_hfuel s : Inv s -> ok hfuel s. Proof. intro. now apply ok_still. Qed.
  Lemma ok_ofuel s : Inv s -> ok ofuel s. Proof. intro. now apply ok_still. Qed.
  Lemma ok_ctx s : Inv s -> ok the_ctx s. Proof. intro. now apply ok_still. Qed.
  Lemma ok_drop {A} (m : sM A) s : ok m s -> ok (let! _ := m in ret tt) s.
  Proof. intro H. apply ok_bind; [assumption|]. intros a s1 _ H1 _. now apply ok_ret. Qed.

  Lemma ok_by_key children cl o key s : children_spec c0 children cl -> (cl = CSection \/ cl = CFieldset) -> Inv s -> valid s o cl -> ok (by_key children o key) s.
  Proof. intros H1 H2 HI HV. destruct (by_key_is c0 HD children cl o key s H1 H2 HI HV) as (s' & v & ids & E & G1 & G2 & _). unfold ok. rewrite E. split; assumption. Qed.
  Lemma by_key_valid children cl o key s s' l : children_spec c0 children cl -> (cl = CSection \/ cl = CFieldset) -> Inv s -> valid s o cl ->
    by_key children o key s = (s', Ok l) -> forall y, In y l -> valid s' y (child_class cl).
  Proof.
    intros H1 H2 HI HV E y Hy. destruct (by_key_is c0 HD children cl o key s H1 H2 HI HV) as (s2 & v & ids & E2 & G1 & G2 & G3 & G4). rewrite E in E2. injection E2 as -> <-.
    destruct G4 as [[= ->]|[G4 _]]; [|discriminate G4].
    apply filter_In in Hy as [Hy _]. pose proof (valid_ext _ _ _ _ G2 HV) as [V1 V2]. rewrite <- V2.
    apply (kid_valid s2 o ids y G1 V1 (made_kids _ _ _ _ _ G3) Hy).
  Qed.
  Lemma children_valid children cl o s s' l : children_spec c0 children cl -> Inv s -> valid s o cl ->
    children o s = (s', Ok l) -> forall y, In y l -> valid s' y (child_class cl).
  Proof.
    intros H1 HI HV E y Hy. destruct (H1 o s HI HV) as (s2 & v & ids & E2 & G1 & G2 & G3 & G4). rewrite E in E2. injection E2 as -> <-. destruct G4 as [[= ->]|[G4 _]]; [|discriminate G4].
    pose proof (valid_ext _ _ _ _ G2 HV) as [V1 V2]. rewrite <- V2. apply (kid_valid s2 o ids y G1 V1 (made_kids _ _ _ _ _ G3) Hy).
  Qed.
  Lemma elem_valid s y : valid s y CSectionElement -> y < length (s_objs s) /\ is_elem (o_class (oget s y)) = true.
  Proof. intros [H1 H2]. rewrite H2. auto. Qed.

  Lemma ok_query w o k q s : Inv s -> valid s o CSection -> ok (query w o k q) s.
  Proof.
    intros HI HV. unfold query. apply ok_bind; [now apply ok_touch|]. intros _ s1 _ H1 X1. pose proof (valid_ext _ _ _ _ X1 HV) as V1.
    apply ok_bind; [apply (ok_by_key _ CSection); auto; now apply section_spec|]. intros els s2 E2 H2 X2.
    pose proof (by_key_valid _ CSection o k s1 s2 els (section_spec c0 HD) (or_introl eq_refl) H1 V1 E2) as Vels.
    apply ok_bind; [now apply ok_obj|]. intros x s3 _ H3 X3. destruct els as [|e [|e' els]].
    - destruct (_ || _); [now apply ok_fail|]. destruct q; now apply ok_ret.
    - destruct w as [kd|]; [|now apply ok_ret]. apply ok_bind; [now apply ok_obj|]. intros ox s4 _ H4 X4. apply ok_bind; [now apply ok_inode|]. intros n s5 _ H5 X5.
      destruct (accepts kd (n_type n)); [|now apply ok_fail]. apply ok_bind.
      + pose proof (valid_ext _ _ _ _ X5 (valid_ext _ _ _ _ X4 (valid_ext _ _ _ _ X3 (Vels e (or_introl eq_refl))))) as V. apply elem_valid in V as [V5 V6]. now apply to_kind_ok.
      + intros y s6 _ H6 _. now apply ok_ret.
    - apply ok_bind; [now apply ok_get|]. intros z s4 _ H4 _. now apply ok_fail.
  Qed.
  Lemma ok_elements o k s : Inv s -> valid s o CSection -> ok (section_elements o k) s.
  Proof.
    intros HI HV. unfold section_elements. apply ok_bind; [now apply ok_touch|]. intros _ s1 _ H1 X1. pose proof (valid_ext _ _ _ _ X1 HV) as V1.
    apply (ok_by_key _ CSection); auto; now apply section_spec.
  Qed.
  Lemma ok_plural kd o k s : Inv s -> valid s o CSection -> ok (plural kd o k) s.
  Proof.
    intros HI HV. unfold plural. apply ok_bind; [now apply ok_touch|]. intros _ s1 _ H1 X1. pose proof (valid_ext _ _ _ _ X1 HV) as V1.
    apply ok_bind; [apply (ok_by_key _ CSection); auto; now apply section_spec|]. intros els s2 E2 H2 X2.
    pose proof (by_key_valid _ CSection o k s1 s2 els (section_spec c0 HD) (or_introl eq_refl) H1 V1 E2) as Vels.
    apply ok_mapM; [assumption|]. intros e s3 He X3 H3. apply ok_bind; [now apply ok_obj|]. intros ox s4 E4 H4 X4. apply ok_bind; [now apply ok_inode|]. intros n s5 E5 H5 X5.
    destruct (accepts kd (n_type n)); [|now apply ok_fail].
    pose proof (valid_ext _ _ _ _ X5 (valid_ext _ _ _ _ X4 (valid_ext _ _ _ _ X3 (Vels e He)))) as V. apply elem_valid in V as [V5 V6]. now apply to_kind_ok.
  Qed.
  Lemma ok_entry o k q s : Inv s -> valid s o CFieldset -> ok (entry_query o k q) s.
  Proof.
    intros HI HV. unfold entry_query. apply ok_bind; [now apply ok_touch|]. intros _ s1 _ H1 X1. pose proof (valid_ext _ _ _ _ X1 HV) as V1.
    apply ok_bind; [apply (ok_by_key _ CFieldset); auto; now apply fieldset_spec|]. intros els s2 E2 H2 X2.
    apply ok_bind; [now apply ok_obj|]. intros x s3 _ H3 X3. destruct els as [|e [|e' els]].
    - destruct (_ || _); [now apply ok_fail|]. destruct q; now apply ok_ret.
    - now apply ok_ret.
    - apply ok_bind; [now apply ok_get|]. intros z s4 _ H4 _. now apply ok_fail.
  Qed.
  Lemma ok_entries o k s : Inv s -> valid s o CFieldset -> ok (fieldset_entries o k) s.
  Proof.
    intros HI HV. unfold fieldset_entries. apply ok_bind; [now apply ok_touch|]. intros _ s1 _ H1 X1. pose proof (valid_ext _ _ _ _ X1 HV) as V1.
    apply (ok_by_key _ CFieldset); auto; now apply fieldset_spec.
  Qed.
  Lemma ok_items o s : Inv s -> valid s o CList -> ok (list_items o) s.
  Proof.
    intros HI HV. unfold list_items. apply ok_bind; [now apply ok_touch|]. intros _ s1 _ H1 X1. pose proof (valid_ext _ _ _ _ X1 HV) as V1.
    apply (ok_children c0 _ CList); auto; now apply list_spec.
  Qed.

  Lemma ok_loader {A} (ld : loader A) t err s : Inv s -> ok (run_loader ld t err) s.
  Proof. intro HI. unfold run_loader. destruct (ld t); [now apply ok_ret|now apply ok_fail|now apply ok_raise]. Qed.
  Lemma ctx_input s : Inv s -> c_input (s_ctx s) = inp.
  Proof. intros [[C _] _]. rewrite C. reflexivity. Qed.
  Lemma ok_value {A} o (ld : loader A) q s : Inv s -> ok (value_of o ld q) s.
  Proof.
    intros HI. unfold value_of. apply ok_bind; [now apply ok_touch|]. intros _ s1 _ H1 X1. apply ok_bind; [now apply ok_obj|]. intros x s2 _ H2 X2.
    apply ok_bind; [now apply ok_ctx|]. intros c s3 Ec H3 X3. unfold the_ctx in Ec. injection Ec as <- <-. apply ok_bind; [now apply ok_hfuel|]. intros f s4 _ H4 X4.
    apply ok_bind.
    - rewrite (ctx_input _ H2). apply ok_heap; [assumption|]. apply keeping_value.
    - intros [t|] s5 _ H5 X5.
      + apply ok_bind; [now apply ok_loader|]. intros a s6 _ H6 _. now apply ok_ret.
      + destruct q; [now apply ok_fail|now apply ok_ret].
  Qed.
  Lemma ok_comment {A} o (ld : loader A) q s : Inv s -> ok (comment_of o ld q) s.
  Proof.
    intros HI. unfold comment_of. apply ok_bind; [now apply ok_touch|]. intros _ s1 _ H1 X1. apply ok_bind; [now apply ok_obj|]. intros x s2 _ H2 X2.
    apply ok_bind; [apply ok_heap; [assumption|apply keeping_comment]|]. intros [[|ch t]|] s3 _ H3 X3.
    - destruct q; [now apply ok_fail|now apply ok_ret].
    - apply ok_bind; [now apply ok_loader|]. intros a s6 _ H6 _. now apply ok_ret.
    - destruct q; [now apply ok_fail|now apply ok_ret].
  Qed.
  Lemma ok_values {A} o (ld : loader A) q s : Inv s -> valid s o CList -> ok (list_values o ld q) s.
  Proof.
    intros HI HV. unfold list_values. apply ok_bind; [now apply ok_items|]. intros l s1 _ H1 X1. apply ok_mapM; [assumption|]. intros. now apply ok_value.
  Qed.
  Lemma ok_plain_key o s : Inv s -> ok (plain_key o) s.
  Proof.
    intros HI. unfold plain_key. apply ok_bind; [now apply ok_obj|]. intros x s2 _ H2 X2. apply ok_bind; [now apply ok_inode|]. intros n s3 _ H3 X3.
    destruct (itype_eqb (n_type n) LIST_ITEM); [|now apply ok_lift]. apply ok_bind; [now apply ok_lift|]. intros p s4 _ H4 X4.
    apply ok_bind; [now apply ok_inode|]. intros pn s5 _ H5 X5. now apply ok_lift.
  Qed.
  Lemma ok_key {A} o (ld : loader A) s : Inv s -> ok (key_with o ld) s.
  Proof.
    intros HI. unfold key_with. apply ok_bind; [now apply ok_touch|]. intros _ s1 _ H1 X1. apply ok_bind; [now apply ok_obj|]. intros x s2 _ H2 X2.
    apply ok_bind; [now apply ok_plain_key|]. intros k s3 _ H3 _. now apply ok_loader.
  Qed.
  Lemma ok_string_key o s : Inv s -> ok (string_key o) s.
  Proof. intros HI. unfold string_key. apply ok_bind; [now apply ok_touch|]. intros _ s1 _ H1 X1. now apply ok_plain_key. Qed.
  Lemma ok_raw o s : Inv s -> ok (raw_of o) s.
  Proof.
    intros HI. unfold raw_of. apply ok_bind; [now apply ok_obj|]. intros x s2 _ H2 X2.
    apply ok_bind; [now apply ok_ctx|]. intros c s3 Ec H3 X3. unfold the_ctx in Ec. injection Ec as <- <-. apply ok_bind; [now apply ok_hfuel|]. intros f s4 _ H4 X4.
    rewrite (ctx_input _ H2). apply ok_heap; [assumption|]. apply keeping_raw.
  Qed.

  Lemma ok_print_value o s : Inv s -> ok (print_value o) s.
  Proof.
    intros HI. unfold print_value. apply ok_bind; [now apply ok_obj|]. intros x s2 _ H2 X2.
    apply ok_bind; [now apply ok_ctx|]. intros c s3 Ec H3 X3. unfold the_ctx in Ec. injection Ec as <- <-. apply ok_bind; [now apply ok_hfuel|]. intros f s4 _ H4 X4.
    apply ok_bind; [rewrite (ctx_input _ H2); apply ok_heap; [assumption|]; apply keeping_value|]. intros v s5 _ H5 _. now apply ok_ret.
  Qed.
  Lemma ok_print o s : Inv s -> o < length (s_objs s) -> ok (print_of o) s.
  Proof.
    intros HI Ho. unfold print_of. apply ok_bind; [now apply ok_obj|]. intros x s2 Ex H2 X2. unfold the_obj in Ex. injection Ex as <- <-.
    apply ok_bind; [now apply ok_inode|]. intros n s3 En H3 X3. unfold inode in En. injection En as <- _.
    assert (P : forall A (ch : nat -> sM (list A)) (f : list A -> text), ok (ch o) s -> ok (let! l := ch o in ret (f l)) s).
    { intros A ch f G. apply ok_bind; [exact G|]. intros l s4 _ H4 _. now apply ok_ret. }
    assert (V : forall f : text -> text, ok (let! v := print_value o in ret (f v)) s).
    { intro f. apply ok_bind; [now apply ok_print_value|]. intros v s4 _ H4 _. now apply ok_ret. }
    assert (KEY : forall f : text -> sM text, (forall k, ok (f k) s) -> ok (let! k := lift (key_or (n_key n)) in f k) s).
    { intros f G. apply ok_bind; [now apply ok_lift|]. intros k s4 Ek _ _. unfold lift in Ek. injection Ek as <- _. apply G. }
    destruct (o_class (oget s o)) eqn:Ec.
    - pose proof (ok_children c0 _ CSection o s (section_spec c0 HD) HI (conj Ho Ec)) as G. destruct (itype_eqb (n_type n) DOCUMENT); [apply (P _ section_children); exact G|].
      apply KEY. intro k. apply (P _ section_children). exact G.
    - apply KEY. intro k. now apply ok_ret.
    - apply KEY. intro k. now apply ok_ret.
    - apply KEY. intro k. apply (P _ fieldset_children), (ok_children c0 _ CFieldset); [now apply fieldset_spec|assumption|split; assumption].
    - apply KEY. intro k. apply (P _ list_children), (ok_children c0 _ CList); [now apply list_spec|assumption|split; assumption].
    - apply KEY. intro k. apply V.
    - apply KEY. intro k. now apply ok_ret.
    - apply KEY. intro k. apply V.
    - apply V.
  Qed.

  Lemma ok_leaf children cl o s : children_spec c0 children cl -> Inv s -> valid s o cl -> ok (untouched_leaf children o) s.
  Proof.
    intros Hch HI HV. unfold untouched_leaf. apply ok_bind; [now apply ok_obj|]. intros x s2 Ex H2 X2. unfold the_obj in Ex. injection Ex as <- <-.
    destruct (o_touched (oget s o)); [|now apply ok_ret]. apply ok_bind; [now apply (ok_children c0 _ cl)|]. intros l s3 _ H3 _.
    apply ok_bind; [now apply ok_get|]. intros z s4 _ H4 _. now apply ok_ret.
  Qed.
  Lemma slot_valid s e k y : Inv s -> e < length (s_objs s) -> yield_slot k (oget s e) = Some y -> valid s y (kind_class k).
  Proof. intros HI He Hy. destruct (oo_slot _ _ _ _ (iv_obj _ _ HI e He) k y Hy) as (_ & A & B & _). split; [lia|assumption]. Qed.
  Lemma ok_untouched fuel : forall e s, Inv s -> e < length (s_objs s) -> ok (untouched_element fuel e) s.
  Proof.
    induction fuel as [|f IH]; intros e s HI He; cbn [untouched_element]; [now apply ok_raise|].
    apply ok_bind; [now apply ok_obj|]. intros x s2 Ex H2 X2. unfold the_obj in Ex. injection Ex as <- <-.
    apply ok_bind; [now apply ok_get|]. intros z s3 Ez H3 X3. unfold get in Ez. injection Ez as <- <-.
    destruct (o_yielded (oget s e)); [|now apply ok_ret].
    destruct (match o_empty (oget s e) with Some y => _ | None => false end); [now apply ok_ret|].
    destruct (match o_field (oget s e) with Some y => _ | None => false end); [now apply ok_ret|].
    destruct (o_fieldset (oget s e)) as [y|] eqn:E1; [apply (ok_leaf _ CFieldset); [now apply fieldset_spec|assumption|exact (slot_valid s e KFieldset y HI He E1)]|].
    destruct (o_list (oget s e)) as [y|] eqn:E2; [apply (ok_leaf _ CList); [now apply list_spec|assumption|exact (slot_valid s e KList y HI He E2)]|].
    destruct (o_section (oget s e)) as [y|] eqn:E4; [|now apply ok_ret]. pose proof (slot_valid s e KSection y HI He E4) as V. cbn in V.
    apply ok_bind; [now apply ok_obj|]. intros sx s4 Esx H4 X4. unfold the_obj in Esx. injection Esx as <- <-. destruct (o_touched (oget s y)); [|now apply ok_ret].
    apply ok_bind; [apply (ok_children c0 _ CSection); [now apply section_spec|assumption|exact V]|]. intros l s5 E5 H5 X5.
    pose proof (children_valid _ CSection y s s5 l (section_spec c0 HD) HI V E5) as Vl.
    apply ok_first; [assumption|]. intros a s6 Ha X6 H6. apply IH; [assumption|]. apply (valid_ext _ _ _ _ X6 (Vl a Ha)).
  Qed.
  Lemma map_members s o l y : Inv s -> valid s o CSection -> o_children (oget s o) = Some l -> In y (flat_map snd (o_map (oget s o))) -> In y l.
  Proof.
    intros HI [Ho Hc] Hl Hy. pose proof (oo_kids _ _ _ _ (iv_obj _ _ HI o Ho) l Hl) as HK. destruct (ki_map _ _ _ _ _ HK) as [N G]; [rewrite Hc; discriminate|].
    apply in_flat_map in Hy as ([k ys] & Hk & Hy). cbn in Hy. assert (assoc k (o_map (oget s o)) = Some ys) as E.
    { clear - N Hk. induction (o_map (oget s o)) as [|[k' w] m IH]; [destruct Hk|]. cbn in *. apply NoDup_cons_iff in N as [N1 N2]. destruct Hk as [[= -> ->]|Hk].
      - now rewrite text_eqb_refl.
      - destruct (text_eqb k k') eqn:E; [|now apply IH]. apply text_eqb_eq in E. subst k'. exfalso. apply N1. now apply (in_map fst) in Hk. }
    rewrite G in E. destruct (under (c_heap c0) k (pairs s l)) as [|z zs] eqn:Eu; [discriminate|]. injection E as <-. rewrite <- Eu in Hy. unfold under, pairs in Hy.
    apply in_map_iff in Hy as ([a b] & Hb & Hy). cbn in Hb. subst b. apply filter_In in Hy as [Hy _]. apply in_map_iff in Hy as (w & Hw & Hin). injection Hw as _ ->. assumption.
  Qed.
  Lemma ok_assert o m only skip s : Inv s -> valid s o CSection -> ok (assert_all_touched o m only skip) s.
  Proof.
    intros HI HV. unfold assert_all_touched. destruct (section_spec c0 HD o s HI HV) as (s1 & v & ids & E1 & H1 & X1 & M1 & G1).
    apply ok_bind; [unfold ok; rewrite E1; split; assumption|]. intros a s1' E1' _ _. rewrite E1 in E1'. injection E1' as <- ->.
    destruct G1 as [[= ->]|[G1 _]]; [|discriminate G1].
    pose proof (valid_ext _ _ _ _ X1 HV) as V1.
    apply ok_bind; [now apply ok_obj|]. intros x s2 Ex H2 X2. unfold the_obj in Ex. injection Ex as <- <-. apply ok_bind; [now apply ok_ofuel|]. intros f s3 Ef H3 X3. unfold ofuel in Ef. injection Ef as <- _.
    cbv zeta. apply ok_bind.
    - apply ok_first; [assumption|]. intros a s4 Ha X4 H4. apply ok_untouched; [assumption|].
      assert (In a (flat_map snd (o_map (oget s1 o)))) as Ha'. { apply in_flat_map in Ha as (p & Hp & Ha). apply filter_In in Hp as [Hp _]. apply in_flat_map. eauto. }
      pose proof (map_members s1 o ids a H1 V1 (made_kids _ _ _ _ _ M1) Ha') as Hin. destruct (kid_valid s1 o ids a H1 (proj1 V1) (made_kids _ _ _ _ _ M1) Hin) as ([A _] & _).
      pose proof (ex_len _ _ X4). lia.
    - intros [i|] s4 _ H4 X4; [now apply ok_fail|now apply ok_ret].
  Qed.
  Lemma ok_assert_entries o m only skip s : Inv s -> valid s o CFieldset -> ok (fieldset_assert_all_touched o m only skip) s.
  Proof.
    intros HI HV. unfold fieldset_assert_all_touched. apply ok_bind; [apply (ok_children c0 _ CFieldset); auto; now apply fieldset_spec|]. intros l s1 _ H1 X1.
    apply ok_bind; [now apply ok_obj|]. intros x s2 _ H2 X2. apply ok_bind; [now apply ok_get|]. intros z s3 _ H3 X3. cbv zeta.
    destruct (find _ _); [now apply ok_raise|now apply ok_ret].
  Qed.

  Lemma ok_group children cl o s : children_spec c0 children cl -> Inv s -> valid s o cl -> ok (touch_group children o) s.
  Proof.
    intros Hch HI HV. unfold touch_group. apply ok_bind; [now apply ok_touch|]. intros _ s1 _ H1 X1. pose proof (valid_ext _ _ _ _ X1 HV) as V1.
    apply ok_bind; [now apply (ok_children c0 _ cl)|]. intros l s2 _ H2 X2. apply ok_iterM; [assumption|]. intros. now apply ok_touch.
  Qed.
  Lemma ok_touch_element fuel : forall e s, Inv s -> e < length (s_objs s) -> ok (touch_element fuel e) s.
  Proof.
    induction fuel as [|f IH]; intros e s HI He; cbn [touch_element]; [now apply ok_raise|].
    apply ok_bind; [now apply ok_obj|]. intros x s2 Ex H2 X2. unfold the_obj in Ex. injection Ex as <- <-.
    destruct (o_yielded (oget s e)); [|now apply ok_ret].
    assert (Hslot : forall k (g : nat -> sM unit) s1, Inv s1 -> ext s s1 -> (forall y, valid s1 y (kind_class k) -> ok (g y) s1) -> ok (touch_slot g (yield_slot k (oget s e))) s1).
    { intros k g s1 H1 X1 Hg. unfold touch_slot. destruct (yield_slot k (oget s e)) as [y|] eqn:Ey; [|now apply ok_ret]. apply Hg. apply (valid_ext _ _ _ _ X1). exact (slot_valid s e k y HI He Ey). }
    apply ok_bind; [apply (Hslot KEmpty); [assumption|apply ext_refl|intros; now apply ok_touch]|]. intros _ s3 _ H3 X3.
    apply ok_bind; [apply (Hslot KField); [assumption..|intros; now apply ok_touch]|]. intros _ s4 _ H4 X4. pose proof (ext_trans _ _ _ X3 X4) as X34.
    apply ok_bind; [apply (Hslot KFieldset); [assumption..|intros; apply (ok_group _ CFieldset); [now apply fieldset_spec|assumption..]]|]. intros _ s5 _ H5 X5. pose proof (ext_trans _ _ _ X34 X5) as X35.
    apply ok_bind; [apply (Hslot KList); [assumption..|intros; apply (ok_group _ CList); [now apply list_spec|assumption..]]|]. intros _ s6 _ H6 X6. pose proof (ext_trans _ _ _ X35 X6) as X36.
    apply (Hslot KSection); [assumption..|]. intros y V. cbn in V.
    apply ok_bind; [now apply ok_touch|]. intros _ s7 _ H7 X7. pose proof (valid_ext _ _ _ _ X7 V) as V7.
    apply ok_bind; [apply (ok_children c0 _ CSection); [now apply section_spec|assumption..]|]. intros l s8 E8 H8 X8.
    pose proof (children_valid _ CSection y s7 s8 l (section_spec c0 HD) H7 V7 E8) as Vl.
    apply ok_iterM; [assumption|]. intros a s9 Ha X9 H9. apply IH; [assumption|]. apply (valid_ext _ _ _ _ X9 (Vl a Ha)).
  Qed.
  Lemma ok_touch_section o s : Inv s -> valid s o CSection -> ok (touch_section o) s.
  Proof.
    intros HI V. unfold touch_section. apply ok_bind; [now apply ok_ofuel|]. intros f s6 Ef H6 X6. unfold ofuel in Ef. injection Ef as <- _.
    apply ok_bind; [now apply ok_touch|]. intros _ s7 _ H7 X7. pose proof (valid_ext _ _ _ _ X7 V) as V7.
    apply ok_bind; [apply (ok_children c0 _ CSection); [now apply section_spec|assumption..]|]. intros l s8 E8 H8 X8.
    pose proof (children_valid _ CSection o s7 s8 l (section_spec c0 HD) H7 V7 E8) as Vl.
    apply ok_iterM; [assumption|]. intros a s9 Ha X9 H9. apply ok_touch_element; [assumption|]. apply (valid_ext _ _ _ _ X9 (Vl a Ha)).
  Qed.
  Lemma ok_touch_any o s : Inv s -> o < length (s_objs s) -> ok (touch o) s.
  Proof.
    intros HI Ho. unfold touch. apply ok_bind; [now apply ok_obj|]. intros x s2 Ex H2 X2. unfold the_obj in Ex. injection Ex as <- <-.
    destruct (o_class (oget s o)) eqn:Ec; try now apply ok_touch.
    - apply ok_touch_section; [assumption|split; assumption].
    - apply ok_bind; [now apply ok_ofuel|]. intros f s3 Ef H3 _. unfold ofuel in Ef. injection Ef as <- _. now apply ok_touch_element.
    - apply ok_bind; [now apply ok_ofuel|]. intros f s3 Ef H3 _. unfold ofuel in Ef. injection Ef as <- _. now apply ok_touch_element.
    - apply (ok_group _ CFieldset); [now apply fieldset_spec|assumption|split; assumption].
    - apply (ok_group _ CList); [now apply list_spec|assumption|split; assumption].
  Qed.

  Lemma ok_require fuel b : forall o s, Inv s -> valid s o CSection -> ok (require_all fuel o b) s.
  Proof.
    induction fuel as [|f IH]; intros o s HI V; cbn [require_all]; [now apply ok_raise|].
    apply ok_bind; [now apply ok_req|]. intros _ s1 _ H1 X1. pose proof (valid_ext _ _ _ _ X1 V) as V1.
    apply ok_bind; [apply (ok_children c0 _ CSection); [now apply section_spec|assumption..]|]. intros l s2 E2 H2 X2.
    pose proof (children_valid _ CSection o s1 s2 l (section_spec c0 HD) H1 V1 E2) as Vl.
    apply ok_iterM; [assumption|]. intros a s3 Ha X3 H3. pose proof (valid_ext _ _ _ _ X3 (Vl a Ha)) as Va. cbn in Va. apply elem_valid in Va as [Va1 Va2].
    apply ok_bind; [now apply ok_obj|]. intros x s4 Ex H4 X4. unfold the_obj in Ex. injection Ex as <- <-.
    apply ok_bind; [now apply ok_inode|]. intros n s5 En H5 X5. unfold inode in En. injection En as <- <-.
    destruct (n_type _); try now apply ok_ret.
    - destruct (o_yielded (oget s3 a)); [|now apply ok_raise]. apply ok_bind; [now apply to_kind_ok|]. intros y s6 E6 H6 X6. now apply ok_req.
    - destruct (o_yielded (oget s3 a)); [|now apply ok_raise]. apply ok_bind; [now apply to_kind_ok|]. intros y s6 E6 H6 X6. apply IH; [assumption|].
      now apply (to_kind_valid c0 KSection a s3 s6 y H3).
  Qed.

  (** a new object without parent *)
  Lemma ok_alloc_section p s : Inv s -> p < length r -> is_container (hget r p) -> ok (new_obj CSection p None) s.
  Proof.
    intros HI Hp Hc. unfold ok, new_obj, alloc. cbn [fst].
    assert (forall x, let s' := MkSt (s_ctx s) (s_objs s ++ [x]) in ObjOk c0 s' (length (s_objs s)) x -> Inv s' /\ ext s s') as G.
    { intros x s' Hx. assert (Hold : forall i, i < length (s_objs s) -> oget s' i = oget s i) by (intros i Hi; unfold oget, s'; cbn [s_objs]; now rewrite app_nth1).
      assert (HX : ext s s'). { split; [subst s'; cbn [s_objs]; rewrite app_length; lia|]. intros i Hi. rewrite Hold by assumption. apply obj_ext_refl. }
      split; [|assumption]. split; [apply HI|]. intros i Hi. destruct (Nat.lt_ge_cases i (length (s_objs s))) as [Hlt|Hge].
      - rewrite Hold by assumption. eapply obj_mono; [exact HX|assumption|]. now apply HI.
      - assert (i = length (s_objs s)) as ->. { subst s'. cbn [s_objs] in Hi. rewrite app_length in Hi. cbn in Hi. lia. }
        replace (oget s' (length (s_objs s))) with x; [assumption|]. unfold oget, s'. cbn [s_objs]. rewrite app_nth2, Nat.sub_diag by lia. reflexivity. }
    apply G. split; cbn; try discriminate; try assumption; try reflexivity; try (intros []; discriminate).
    destruct Hc; auto.
  Qed.
  Lemma ok_parent o s : Inv s -> o < length (s_objs s) -> ok (parent_of o) s.
  Proof.
    intros HI Ho. unfold parent_of. apply ok_bind; [now apply ok_obj|]. intros x s2 Ex H2 X2. unfold the_obj in Ex. injection Ex as <- <-.
    apply ok_bind; [now apply ok_inode|]. intros n s3 En H3 X3. unfold inode in En. injection En as <- <-.
    assert (K : forall A (y : A) p, n_parent (hget (c_heap (s_ctx s)) (o_instr (oget s o))) = Some p -> o_class (oget s o) = CFieldset \/ o_class (oget s o) = CList ->
      ok (let! y := new_obj CSection p None in ret (Some y)) s).
    { intros A y p Ep Hcl. rewrite (ca_parent _ _ _ _ (co_heap _ _ _ (iv_ctx _ _ HI))) in Ep. pose proof (iv_obj _ _ HI o Ho) as [G1 G2 _ _ _ _ _]. fold r in G1, G2.
      assert (is_element (hget r (o_instr (oget s o)))) as Hel.
      { clear - Hcl G2. unfold is_element. destruct Hcl as [Hcl|Hcl]; rewrite Hcl in G2; cbn in G2; fold r in G2; destruct (n_type (hget r (o_instr (oget s o)))); try discriminate; exact I. }
      assert (o_instr (oget s o) <> 0) as Hn0. { intro E0. rewrite E0 in Hel. destruct (doc_root r HD) as (_ & Er & _). unfold is_element in Hel. now rewrite Er in Hel. }
      destruct (doc_parent r HD (o_instr (oget s o))) as (q & Eq & Hq & _ & Hq2 & _); [split; [lia|exact G1]|]. unfold r in Eq. rewrite Ep in Eq. injection Eq as <-.
      apply ok_bind; [apply ok_alloc_section; [assumption|unfold r in *; lia|auto]|]. intros z s4 _ H4 _. now apply ok_ret. }
    destruct (o_class (oget s o)) eqn:Ec; try now apply ok_raise.
    - destruct (itype_eqb _ DOCUMENT) eqn:Et; [|now apply ok_ret]. destruct (o_parent (oget s o)) as [p|]; [now apply ok_ret|].
      assert (o_instr (oget s o) = 0) as ->.
      { rewrite type_is with (c0 := c0) in Et by assumption. fold r in Et. apply itype_eqb_eq in Et. pose proof (oo_instr _ _ _ _ (iv_obj _ _ HI o Ho)) as G1.
        destruct (Nat.eq_dec (o_instr (oget s o)) 0) as [E|E]; [assumption|]. destruct (doc_parent r HD (o_instr (oget s o))) as (q & _ & _ & Hq & _); [unfold r; lia|contradiction]. }
      rewrite (ca_parent _ _ _ _ (co_heap _ _ _ (iv_ctx _ _ HI))). rewrite (doc_top _ HD). apply ok_bind; [now apply ok_lift|]. intros p s4 E. discriminate E.
    - destruct (o_parent (oget s o)) as [p|]; [now apply ok_ret|]. destruct (n_parent (hget (c_heap (s_ctx s)) (o_instr (oget s o)))) as [p|] eqn:Ep; [|apply ok_bind; [now apply ok_lift|intros ? ? E; discriminate E]].
      apply (K nat 0 p eq_refl). now left.
    - destruct (o_parent (oget s o)) as [p|]; [now apply ok_ret|]. destruct (n_parent (hget (c_heap (s_ctx s)) (o_instr (oget s o)))) as [p|] eqn:Ep; [|apply ok_bind; [now apply ok_lift|intros ? ? E; discriminate E]].
      apply (K nat 0 p eq_refl). now right.
    - destruct (o_parent (oget s o)) as [p|]; [now apply ok_ret|now apply ok_raise].
    - destruct (o_parent (oget s o)) as [p|]; [now apply ok_ret|now apply ok_raise].
    - destruct (o_parent (oget s o)) as [p|]; [now apply ok_ret|now apply ok_raise].
    - destruct (o_parent (oget s o)) as [p|]; [now apply ok_ret|now apply ok_raise].
  Qed.

  Lemma ok_call c s : Inv s -> subject c < length (s_objs s) -> callable c (o_class (oget s (subject c))) -> ok (run_call c) s.
  Proof.
    intros HI Ho Hc. destruct c; cbn [run_call callable subject] in *; try (apply ok_drop).
    - apply ok_query; [assumption|split; assumption].
    - apply ok_elements; [assumption|split; assumption].
    - apply ok_plural; [assumption|split; assumption].
    - apply to_kind_ok; try assumption. destruct Hc as [-> | ->]; reflexivity.
    - apply ok_entry; [assumption|split; assumption].
    - apply ok_entries; [assumption|split; assumption].
    - apply ok_items; [assumption|split; assumption].
    - apply ok_values; [assumption|split; assumption].
    - now apply ok_value.
    - now apply ok_comment.
    - now apply ok_key.
    - now apply ok_string_key.
    - now apply ok_raw.
    - apply ok_assert; [assumption|split; assumption].
    - apply ok_assert_entries; [assumption|split; assumption].
    - now apply ok_touch_any.
    - unfold all_elements_required. apply ok_bind; [now apply ok_ofuel|]. intros f s1 Ef H1 _. unfold ofuel in Ef. injection Ef as <- _. apply ok_require; [assumption|split; assumption].
    - now apply ok_req.
    - now apply ok_parent.
    - now apply ok_print.
  Qed.
  Lemma inv_on s s' : goes_on s s' -> Inv s -> Inv s' /\ ext s s'.
  Proof.
    induction 1 as [s|s c s' H1 H2 H3 IH]; intro HI; [split; [assumption|apply ext_refl]|].
    destruct (ok_call c s HI H1 H2) as [G1 G2]. destruct (IH G1) as [G3 G4]. split; [assumption|eapply ext_trans; eassumption].
  Qed.
  Lemma ctx_start : fresh (c_heap c0) -> CtxOk r c0 c0.
  Proof. intro H. split; [now destruct c0|]. now apply cached_start. Qed.
  Lemma inv_begins s : begins c0 s -> Inv s.
  Proof.
    pose proof (ctx_start (doc_fresh _ HD)) as HC.
    assert (forall x, ObjOk c0 (MkSt c0 [x]) 0 x -> Inv (MkSt c0 [x])) as G.
    { intros x Hx. split; [exact HC|]. intros i Hi. cbn in Hi. assert (i = 0) as -> by lia. exact Hx. }
    destruct (doc_root _ HD) as (R1 & R2 & _).
    intros [|i Hi]; apply G; split; cbn [start_obj o_instr o_class o_parent o_children yield_slot o_yielded]; try discriminate; try assumption; try reflexivity; try (intros []; discriminate).
    - cbn. now right.
  Qed.
  Lemma inv_reach s : reach c0 s -> Inv s.
  Proof. intros (s0 & H0 & H1). apply (inv_on s0); [assumption|]. now apply inv_begins. Qed.
End Inv.
