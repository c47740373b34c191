(** RepeatProofs: the same query again, missing elements, yielding twice. *)
From Verif Require Import Base Types Messages Resolver Reporter Errors Context Elements SpecTree SpecRead SpecApi SpecQuery Reads ErrorCaches ApiDoc ApiInv ApiState ApiOps Session SessionInv QueryProofs.

Section Repeat.
  Context (c0 : ctx) (HD : Doc (c_heap c0)).
  Let r := c_heap c0.
  Let inp := c_input c0.
  Notation Inv := (Inv c0).

  Lemma names_ext s s' o cl e : ext s s' -> names s o cl e -> names s' o cl e.
  Proof. intros [L H] (A & B & C). destruct (H o A) as [X1 X2 _ _ _ _ _]. repeat split; [lia|congruence..]. Qed.
  Lemma names_on s s' o cl e : goes_on s s' -> Inv s -> names s o cl e -> names s' o cl e.
  Proof. intros HG HI. apply names_ext. now apply (inv_on c0 HD s s'). Qed.

  (** ** Yielding *)
  Definition elem_class (cl : class) : Prop := cl = CSectionElement \/ cl = CElement.
  Lemma yield_again k e cl x s s1 y s2 : Inv s -> names s e cl x -> elem_class cl -> to_kind k e s = (s1, Ok y) -> goes_on s1 s2 ->
    is_obj s1 y (kind_class k) x (o_parent (oget s e)) /\
    to_kind k e s2 = (s2, Ok y) /\ forall j, j <> k ->
      to_kind j e s2 = (s2, match j with KSection => raised (v_unexpected_element_type c0 None x Q_expected_section) | _ => Raise TypeError end).
  Proof.
    intros HI (He & Hc & Hx) Hcl E HG. assert (Hel : is_elem (o_class (oget s e)) = true) by (destruct Hcl as [Hcl|Hcl]; rewrite Hc, Hcl; reflexivity).
    pose proof (to_kind_ok c0 k e s HI He Hel) as [K1 K2]. rewrite E in K1, K2. cbn [fst] in *.
    destruct (to_kind_valid c0 k e s s1 y HI He Hel E) as ([V1 V2] & V3 & V4 & V5).
    destruct (inv_on c0 HD s1 s2 HG K1) as [HI2 HX2]. pose proof (ext_trans _ _ _ K2 HX2) as HX.
    destruct (ex_obj _ _ HX e He) as [X1 X2 X3 _ _ _ _]. pose proof (ex_obj _ _ HX2 e) as X4. assert (e < length (s_objs s1)) as He1 by (destruct K2; lia).
    specialize (X4 He1). pose proof (xe_slot _ _ X4 k y V5) as Hs. assert (He2 : e < length (s_objs s2)) by (destruct HX; lia).
    assert (Hel2 : is_elem (o_class (oget s2 e)) = true) by now rewrite X1.
    split; [repeat split; [assumption|assumption|congruence|assumption]|]. split; [rewrite (to_kind_is c0) by assumption; now rewrite Hs|].
    intros j Hj. rewrite (to_kind_is c0) by assumption.
    destruct (yield_slot j (oget s2 e)) as [z|] eqn:Ej; [exfalso; apply Hj; eapply (slot_unique c0 s2 e); eassumption|].
    destruct (oo_slot _ _ _ _ (iv_obj _ _ HI2 e He2) k y Hs) as (_ & _ & _ & _ & _ & Hy & Ha). rewrite Hy. fold r in Ha |- *.
    destruct j; try reflexivity. rewrite X2, Hx in *. destruct (accepts KSection (n_type (hget r x))) eqn:Es; [|reflexivity].
    exfalso. apply Hj. clear - Ha Es. destruct (n_type (hget r x)), k; cbn in *; congruence.
  Qed.

  (** ** The same objects again *)
  Lemma hits_again children cl o e key s s1 ids ys hits s2 s3 ids' ys' hits' : Inv s1 -> goes_on s1 s2 -> names s o cl e ->
    Hits c0 children cl o key s s1 ids ys hits -> Hits c0 children cl o key s2 s3 ids' ys' hits' -> ids' = ids /\ ys' = ys.
  Proof.
    intros HI1 HG (Ho & _) [_ _ HX Hk _ Hys _ _ Heach _] [_ _ HX3 Hk3 Hold3 Hys3 _ _ _ _]. destruct (inv_on c0 HD s1 s2 HG HI1) as [HI2 HX2].
    assert (Ho1 : o < length (s_objs s1)) by (destruct HX; lia).
    destruct (xe_kids _ _ (ex_obj _ _ HX2 o Ho1) ids Hk) as [Hk2 _]. assert (ids' = ids) as -> by auto. split; [reflexivity|].
    rewrite Hys, Hys3. clear Hys Hys3 Hold3. assert (forall y, In y ids -> o_instr (oget s3 y) = o_instr (oget s1 y)) as G.
    { intros y Hy. destruct (Heach y Hy) as (A1 & _). apply (xe_instr _ _ (ex_obj _ _ (ext_trans _ _ _ HX2 HX3) y A1)). }
    clear - G. induction ids as [|y l IH]; [reflexivity|]. cbn [filter]. rewrite (G y) by now left. rewrite IH; [reflexivity|]. intros z Hz. apply G. now right.
  Qed.
  (** reading again *)
  Lemma hits_stay children cl o e key s s1 ids ys hits s2 s3 v ids3 : Inv s -> names s o cl e -> Hits c0 children cl o key s s1 ids ys hits -> ext s1 s2 ->
    by_key children o key (upd_obj o with_touched s2) = (s3, v) ->
    (v = Raise Fuel /\ ~ ends r e /\ o_children (oget s2 o) = None \/ exists ys3, v = Ok ys3 /\ Hits c0 children cl o key s2 s3 ids3 ys3 (map (fun y => o_instr (oget s3 y)) ys3)) ->
    v = Ok ys /\ Hits c0 children cl o key s2 s3 ids ys hits.
  Proof.
    intros HI (Ho & _) HH HX2 E3 Hv. pose proof HH as [_ _ HX Hk _ Hys Hhits _ Heach _].
    assert (Ho1 : o < length (s_objs s1)) by (destruct HX; lia). destruct (xe_kids _ _ (ex_obj _ _ HX2 o Ho1) ids Hk) as [Hk2 _].
    destruct Hv as [(_ & _ & Hn)|(ys3 & -> & HH3)]; [congruence|]. pose proof HH3 as [_ _ HX3 Hk3 Hold3 Hys3 _ _ _ _].
    assert (ids3 = ids) as -> by auto.
    assert (forall y, In y ids -> o_instr (oget s3 y) = o_instr (oget s1 y)) as G.
    { intros y Hy. destruct (Heach y Hy) as (A1 & _). apply (xe_instr _ _ (ex_obj _ _ (ext_trans _ _ _ HX2 HX3) y A1)). }
    assert (ys3 = ys) as ->.
    { rewrite Hys, Hys3. clear - G. induction ids as [|y l IH]; [reflexivity|]. cbn [filter]. rewrite (G y) by now left. rewrite IH; [reflexivity|]. intros z Hz. apply G. now right. }
    split; [reflexivity|]. replace hits with (map (fun y => o_instr (oget s3 y)) ys); [exact HH3|]. rewrite <- Hhits. apply map_ext_in. intros y Hy. apply G.
    rewrite Hys in Hy. now apply filter_In in Hy.
  Qed.
  Lemma elements_again o e key s s1 ys s2 : Inv s -> names s o CSection e -> section_elements o key s = (s1, Ok ys) -> goes_on s1 s2 -> snd (section_elements o key s2) = Ok ys.
  Proof.
    intros HI HN E HG. destruct (hits_any c0 HD _ CSection o e key s (section_spec c0 HD) (or_introl eq_refl) HI HN) as (s' & v & ids & E1 & Hv).
    unfold section_elements, mbind, touch_obj, oset in E. rewrite E1 in E. injection E as -> ->. destruct Hv as [(Hv & _)|(ys' & [= <-] & HH)]; [discriminate Hv|].
    pose proof HH as [_ HI1 HX _ _ _ _ _ _ _].
    destruct (inv_on c0 HD s1 s2 HG HI1) as [HI2 HX2]. pose proof (names_ext _ _ _ _ _ (ext_trans _ _ _ HX HX2) HN) as HN2.
    destruct (hits_any c0 HD _ CSection o e key s2 (section_spec c0 HD) (or_introl eq_refl) HI2 HN2) as (s3 & v3 & ids3 & E3 & Hv3).
    destruct (hits_stay _ _ _ _ _ _ _ _ _ _ _ _ _ _ HI HN HH HX2 E3 Hv3) as [-> _].
    unfold section_elements, mbind, touch_obj, oset. now rewrite E3.
  Qed.
  Lemma entries_again o e key s s1 ys s2 : Inv s -> names s o CFieldset e -> fieldset_entries o key s = (s1, Ok ys) -> goes_on s1 s2 -> snd (fieldset_entries o key s2) = Ok ys.
  Proof.
    intros HI HN E HG. destruct (hits_any c0 HD _ CFieldset o e key s (fieldset_spec c0 HD) (or_intror eq_refl) HI HN) as (s' & v & ids & E1 & Hv).
    unfold fieldset_entries, mbind, touch_obj, oset in E. rewrite E1 in E. injection E as -> ->. destruct Hv as [(Hv & _)|(ys' & [= <-] & HH)]; [discriminate Hv|].
    pose proof HH as [_ HI1 HX _ _ _ _ _ _ _].
    destruct (inv_on c0 HD s1 s2 HG HI1) as [HI2 HX2]. pose proof (names_ext _ _ _ _ _ (ext_trans _ _ _ HX HX2) HN) as HN2.
    destruct (hits_any c0 HD _ CFieldset o e key s2 (fieldset_spec c0 HD) (or_intror eq_refl) HI2 HN2) as (s3 & v3 & ids3 & E3 & Hv3).
    destruct (hits_stay _ _ _ _ _ _ _ _ _ _ _ _ _ _ HI HN HH HX2 E3 Hv3) as [-> _].
    unfold fieldset_entries, mbind, touch_obj, oset. now rewrite E3.
  Qed.
  Lemma items_again o e s s1 ys s2 : Inv s -> names s o CList e -> list_items o s = (s1, Ok ys) -> goes_on s1 s2 -> snd (list_items o s2) = Ok ys.
  Proof.
    intros HI HN E HG. destruct (ok_items c0 HD o s HI) as [K1 K2]; [destruct HN as (A & B & _); now split|]. rewrite E in K1, K2. cbn [fst] in *.
    destruct (inv_on c0 HD s1 s2 HG K1) as [HI2 HX2]. destruct HN as (Ho & Hc & He).
    destruct (touched_inv c0 o s HI) as [HI1 HX1]. unfold list_items, mbind, touch_obj, oset in E |- *. set (sa := upd_obj o with_touched s) in *.
    assert (HV1 : valid sa o CList) by (apply (valid_ext _ _ _ _ HX1); split; assumption).
    destruct (list_spec c0 HD o sa HI1 HV1) as (s' & v & ids & E' & HI' & HX' & HM & Hgot). rewrite E' in E. injection E as <- ->.
    destruct Hgot as [[= ->]|[Hgot _]]; [|discriminate Hgot].
    pose proof (made_kids _ _ _ _ _ HM) as Hk. assert (Ho' : o < length (s_objs s')) by (destruct K2; lia).
    destruct (xe_kids _ _ (ex_obj _ _ HX2 o Ho') ids Hk) as [Hk2 _].
    unfold list_children, mbind, the_obj. rewrite touched_get, Nat.eqb_refl. destruct (Nat.ltb_spec o (length (s_objs s2))); [|destruct HX2; lia]. cbn [andb with_touched o_children].
    rewrite Hk2. reflexivity.
  Qed.

  Lemma query_again what o e key req req' s s1 y s2 : Inv s -> names s o CSection e -> query what o key req s = (s1, Ok (FObj y)) -> goes_on s1 s2 ->
    snd (query what o key req' s2) = Ok (FObj y).
  Proof.
    intros HI HN E HG. destruct (hits_any c0 HD _ CSection o e key s (section_spec c0 HD) (or_introl eq_refl) HI HN) as (s' & v & ids & E1 & Hv).
    destruct Hv as [(-> & _)|(ys' & -> & HH)]; [unfold query in E; unfold mbind at 1, touch_obj, oset in E; unfold mbind at 1 in E; rewrite E1 in E; discriminate E|].
    pose proof HH as [_ HI1 HX _ _ Hys _ _ Heach _]. pose proof HN as (Ho & Hc & He).
    pose proof (ok_query c0 HD what o key req s HI (conj Ho Hc)) as [Kq1 Kq2]. rewrite E in Kq1, Kq2. cbn [fst] in *.
    destruct (inv_on c0 HD s1 s2 HG Kq1) as [HI2 HX2]. pose proof (names_ext _ _ _ _ _ (ext_trans _ _ _ Kq2 HX2) HN) as HN2.
    destruct (hits_any c0 HD _ CSection o e key s2 (section_spec c0 HD) (or_introl eq_refl) HI2 HN2) as (s3 & v3 & ids3 & E3 & Hv3).
    unfold query in E. unfold mbind at 1, touch_obj, oset in E. unfold mbind at 1 in E. rewrite E1 in E. unfold mbind at 1, the_obj in E.
    assert (G : ext s' s1 -> v3 = Ok ys' /\ Hits c0 section_children CSection o key s2 s3 ids ys' (map (fun y => o_instr (oget s' y)) ys')).
    { intro HXq. exact (hits_stay _ _ _ _ _ _ _ _ _ _ _ _ _ _ HI HN HH (ext_trans _ _ _ HXq HX2) E3 Hv3). }
    unfold query. unfold mbind at 1, touch_obj, oset. unfold mbind at 1. rewrite E3.
    destruct ys' as [|y1 [|y2 ys']].
    - exfalso. destruct (_ || _)%bool; [|destruct req; discriminate]. rewrite (fail_is c0) in E by (auto using blind_missing). unfold raised in E. destruct (v_missing_element _ _ _ _); discriminate.
    - assert (In y1 ids) as Hin. { assert (In y1 [y1]) as Hy by now left. rewrite Hys in Hy. now apply filter_In in Hy. }
      destruct what as [kd|]; [|injection E as <- <-; destruct (G (ext_refl _)) as [-> _]; reflexivity].
      unfold mbind at 1 in E. unfold mbind at 1, inode in E. rewrite (type_is c0) in E by assumption. fold r in E. destruct (Heach y1 Hin) as (O1 & O2 & O3 & O4).
      destruct (accepts kd (n_type (hget r (o_instr (oget s' y1))))) eqn:Ea.
      + unfold mbind in E. destruct (to_kind kd y1 s') as [s1' [y'|]] eqn:Et; [|discriminate]. injection E as <- <-.
        assert (Hel : is_elem (o_class (oget s' y1)) = true) by now rewrite O2.
        pose proof (to_kind_ok c0 kd y1 s' HI1 O1 Hel) as [K1 K2]. rewrite Et in K1, K2. cbn [fst] in *. destruct (G K2) as [-> HH3].
        destruct (to_kind_valid c0 kd y1 s' s1' y' HI1 O1 Hel Et) as (_ & _ & _ & V5).
        unfold mbind at 1, the_obj. unfold mbind at 1. unfold mbind at 1, inode. pose proof HH3 as [_ HI3 HX3 _ _ _ _ _ Heach3 _].
        pose proof (ext_trans _ _ _ K2 (ext_trans _ _ _ HX2 HX3)) as HX'3. destruct (ex_obj _ _ HX'3 y1 O1) as [X1 X2 _ _ _ _ _].
        rewrite (type_is c0) by assumption. fold r. rewrite X2, Ea. unfold mbind, to_kind. unfold mbind at 1, the_obj.
        assert (O1' : y1 < length (s_objs s1')) by (destruct K2; lia).
        rewrite (xe_slot _ _ (ex_obj _ _ (ext_trans _ _ _ HX2 HX3) y1 O1') kd y' V5). reflexivity.
      + exfalso. rewrite (fail_is c0) in E by (auto using blind_type). unfold raised in E. destruct (v_unexpected_element_type _ _ _ _); discriminate.
    - exfalso. unfold mbind, get in E. rewrite (fail_is c0) in E by (auto using blind_multiple). unfold raised in E. destruct (v_unexpected_multiple_elements _ _ _ _); discriminate.
  Qed.

  Lemma slots_ext s s' k ys zs : ext s s' -> (forall y, In y ys -> y < length (s_objs s)) -> Forall2 (fun y z => yield_slot k (oget s y) = Some z) ys zs ->
    Forall2 (fun y z => yield_slot k (oget s' y) = Some z) ys zs.
  Proof.
    intros HX Hy H. induction H as [|y z ys zs H _ IH]; constructor; [|apply IH; intros; apply Hy; now right].
    apply (xe_slot _ _ (ex_obj _ _ HX y (Hy y (or_introl eq_refl)))). assumption.
  Qed.
  Lemma convert_slots k key q ys : forall s s' zs, Inv s -> (forall y, In y ys -> valid s y CSectionElement) -> mapM (convert k key q) ys s = (s', Ok zs) ->
    ext s s' /\ Forall2 (fun y z => yield_slot k (oget s' y) = Some z) ys zs.
  Proof.
    induction ys as [|y ys IH]; intros s s' zs HI HV E; cbn [mapM] in E.
    - injection E as <- <-. split; [apply ext_refl|constructor].
    - destruct (HV y (or_introl eq_refl)) as [Hy Hc]. unfold mbind at 1 in E. unfold convert at 1 in E. unfold mbind at 1, the_obj in E. unfold mbind at 1, inode in E.
      rewrite (type_is c0) in E by assumption. fold r in E. destruct (accepts k (n_type (hget r (o_instr (oget s y))))) eqn:Ea.
      + destruct (to_kind k y s) as [s1 [z|]] eqn:Et; [|discriminate]. assert (Hel : is_elem (o_class (oget s y)) = true) by now rewrite Hc.
        pose proof (to_kind_ok c0 k y s HI Hy Hel) as [K1 K2]. rewrite Et in K1, K2. cbn [fst] in *. destruct (to_kind_valid c0 k y s s1 z HI Hy Hel Et) as (_ & _ & _ & V).
        unfold mbind in E. destruct (mapM (convert k key q) ys s1) as [s2 [zs'|]] eqn:Em; [|discriminate]. injection E as <- <-.
        destruct (IH s1 s2 zs' K1) as [HX F]; [intros y' Hy'; apply (valid_ext _ _ _ _ K2), HV; now right|assumption|].
        split; [eapply ext_trans; eassumption|]. constructor; [|assumption]. apply (xe_slot _ _ (ex_obj _ _ HX y ltac:(destruct K2; lia))). assumption.
      + rewrite (fail_is c0) in E by (auto using blind_type). unfold raised in E. destruct (v_unexpected_element_type _ _ _ _); discriminate.
  Qed.
  Lemma convert_known k key q ys zs s : Inv s -> (forall y, In y ys -> y < length (s_objs s)) -> Forall2 (fun y z => yield_slot k (oget s y) = Some z) ys zs ->
    mapM (convert k key q) ys s = (s, Ok zs).
  Proof.
    intros HI Hy H. induction H as [|y z ys zs H _ IH]; [reflexivity|]. cbn [mapM]. unfold mbind at 1. unfold convert at 1. unfold mbind at 1, the_obj. unfold mbind at 1, inode.
    rewrite (type_is c0) by assumption. destruct (oo_slot _ _ _ _ (iv_obj _ _ HI y (Hy y (or_introl eq_refl))) k z H) as (_ & _ & _ & _ & _ & _ & ->).
    unfold to_kind. unfold mbind at 1, the_obj. rewrite H. unfold ret at 1. unfold mbind. rewrite IH; [reflexivity|]. intros; apply Hy; now right.
  Qed.
  Lemma plural_again k o e key s s1 zs s2 : Inv s -> names s o CSection e -> plural k o key s = (s1, Ok zs) -> goes_on s1 s2 -> snd (plural k o key s2) = Ok zs.
  Proof.
    intros HI HN E HG. destruct (hits_any c0 HD _ CSection o e key s (section_spec c0 HD) (or_introl eq_refl) HI HN) as (s' & v & ids & E1 & Hv).
    destruct Hv as [(-> & _)|(ys & -> & HH)]; [unfold plural in E; unfold mbind at 1, touch_obj, oset in E; unfold mbind at 1 in E; rewrite E1 in E; discriminate E|].
    pose proof HH as [_ HI1 HX Hk _ Hys _ _ Heach _]. pose proof HN as (Ho & Hc & He).
    pose proof (ok_plural c0 HD k o key s HI (conj Ho Hc)) as [Kq1 Kq2]. rewrite E in Kq1, Kq2. cbn [fst] in *.
    destruct (inv_on c0 HD s1 s2 HG Kq1) as [HI2 HX2]. pose proof (names_ext _ _ _ _ _ (ext_trans _ _ _ Kq2 HX2) HN) as HN2.
    destruct (hits_any c0 HD _ CSection o e key s2 (section_spec c0 HD) (or_introl eq_refl) HI2 HN2) as (s3 & v3 & ids3 & E3 & Hv3).
    unfold plural in E. unfold mbind at 1, touch_obj, oset in E. unfold mbind at 1 in E. rewrite E1 in E. change (mapM (convert k key (plural_msg k)) ys s' = (s1, Ok zs)) in E.
    assert (HV : forall y, In y ys -> valid s' y CSectionElement). { intros y Hy. rewrite Hys in Hy. apply filter_In in Hy as [Hy _]. destruct (Heach y Hy) as (A1 & A2 & _). now split. }
    destruct (convert_slots k key (plural_msg k) ys s' s1 zs HI1 HV E) as [HXq F].
    destruct (hits_stay _ _ _ _ _ _ _ _ _ _ _ _ _ _ HI HN HH (ext_trans _ _ _ HXq HX2) E3 Hv3) as [-> HH3]. pose proof HH3 as [_ HI3 HX3 _ _ _ _ _ _ _].
    unfold plural. unfold mbind at 1, touch_obj, oset. unfold mbind at 1. rewrite E3. change (snd (mapM (convert k key (plural_msg k)) ys s3) = Ok zs).
    assert (Hlt : forall y, In y ys -> y < length (s_objs s1)) by (intros y Hy; destruct (HV y Hy); destruct HXq; lia).
    rewrite (convert_known k key (plural_msg k) ys zs s3 HI3); [reflexivity| |].
    - intros y Hy. specialize (Hlt y Hy). destruct (ext_trans _ _ _ HX2 HX3). lia.
    - apply (slots_ext s1); [eapply ext_trans; eassumption|assumption|assumption].
  Qed.

  (** ** Missing elements *)
  Lemma missing_error_is {A} k key o e s : Inv s -> names s o CSection e -> forall m, outermost m = (k, key, o) ->
    @missing_error A m s = (s, raised (v_missing_element c0 key e (absence_message k))).
  Proof.
    intros HI (Ho & Hc & He). fix IH 1. intros [k' key' [o'|m']]; cbn [missing_error outermost]; [clear IH|apply IH].
    intros [= -> -> ->]. unfold mbind, the_obj. rewrite Hc, He. rewrite (fail_is c0) by (auto using blind_missing). now destruct k.
  Qed.
  (** what missing elements can be come by *)
  Lemma outermost_kind kd m k key o : outermost m = (k, key, o) -> exists k', outermost (missing_to_kind kd m) = (k', key, o).
  Proof. destruct m as [k' key' [o'|m']]; cbn; [intros [= -> -> ->]; eauto|eauto]. Qed.
End Repeat.
