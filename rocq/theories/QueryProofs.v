(** QueryProofs: the answers of queries. *)
From Verif Require Import Base Types Messages Resolver Reporter Errors Context Elements SpecTree SpecRead SpecApi SpecQuery Reads ErrorCaches ApiDoc ApiInv ApiState ApiOps Session SessionInv.

Section Lists.
  Context (r : heap) (HD : Doc r).

  Lemma without_fun own l l1 l2 : (forall x, In x own -> n_key (hget r x) <> None) -> (forall x, In x l -> n_key (hget r x) <> None) ->
    without r own l l1 -> without r own l l2 -> l1 = l2.
  Proof. intros Ho Hl H1 H2. rewrite (without_is r own l l1), (without_is r own l l2); auto. Qed.
  Lemma element_list_fun e l1 : element_list r e l1 -> forall l2, element_list r e l2 -> l1 = l2.
  Proof.
    induction 1 as [e [A B]|e m l A H IH|e t l l' [A B] H IH HW]; intros l2 H2; inversion H2 as [? [A' B']|? m' ? A' G|? t' k k' [A' B'] G GW]; subst; unfold mirrors in *; try congruence.
    - apply IH. assert (m' = m) as -> by congruence. assumption.
    - assert (t' = t) as -> by congruence. rewrite (IH _ G) in *. f_equal.
      apply (without_fun (own_elements r e) k); [intros x Hx; now apply (own_element_keys r HD e)|now apply (element_list_keys r HD t)|assumption..].
  Qed.
  Lemma entry_list_fun e l1 : entry_list r e l1 -> forall l2, entry_list r e l2 -> l1 = l2.
  Proof.
    induction 1 as [e [A B]|e m l A H IH|e t l l' [A B] H IH HW]; intros l2 H2; inversion H2 as [? [A' B']|? m' ? A' G|? t' k k' [A' B'] G GW]; subst; unfold mirrors in *; try congruence.
    - apply IH. assert (m' = m) as -> by congruence. assumption.
    - assert (t' = t) as -> by congruence. rewrite (IH _ G) in *. f_equal.
      apply (without_fun (own_entries r e) k); [intros x Hx; now apply (own_entry_key r HD e)|now apply (entry_list_keys r HD t)|assumption..].
  Qed.
  Lemma item_list_fun e l1 : item_list r e l1 -> forall l2, item_list r e l2 -> l1 = l2.
  Proof.
    induction 1 as [e [A B]|e m l A H IH|e t l [A B] H IH]; intros l2 H2; inversion H2 as [? [A' B']|? m' ? A' G|? t' k [A' B'] G]; subst; unfold mirrors in *; try congruence.
    - apply IH. assert (m' = m) as -> by congruence. assumption.
    - assert (t' = t) as -> by congruence. now rewrite (IH _ G).
  Qed.
  Lemma element_list_nodup e l : element_list r e l -> NoDup l.
  Proof.
    induction 1 as [e [A B]|e m l A H IH|e t l l' [A B] H IH HW]; [apply (doc_nodup r HD)|assumption|].
    assert (G : NoDup l' /\ forall x, In x l' -> ~ In x (own_elements r e)).
    { clear H. induction HW as [|x l l' Hn HW IHW|x l l' Hn HW IHW]; [split; [constructor|intros x []]| |].
      - apply NoDup_cons_iff in IH as [N1 N2]. destruct (IHW N2) as [M1 M2]. split.
        + constructor; [|assumption]. intro Hx. apply N1. eapply without_sub; eassumption.
        + intros y [<-|Hy]; [|auto]. intro Hy. apply Hn. exists x. split; [assumption|reflexivity].
      - apply NoDup_cons_iff in IH as [_ N2]. auto. }
    destruct G as [G1 G2]. clear - G1 G2 HD. pose proof (doc_nodup r HD e) as N. induction (own_elements r e) as [|x own IH]; [assumption|]. cbn.
    apply NoDup_cons_iff in N as [N1 N2]. constructor; [|apply IH; [|assumption]; intros y Hy Hin; apply (G2 y Hy); now right].
    intro Hx. apply in_app_or in Hx as [Hx|Hx]; [contradiction|]. apply (G2 x Hx). now left.
  Qed.
  Lemma element_list_ends e l : element_list r e l -> ends r e.
  Proof. induction 1 as [e H|e m l H _ IH|e t l l' H _ IH _]; [now apply en_plain|eapply en_mirror|eapply en_extend]; eassumption. Qed.
  Lemma entry_list_ends e l : entry_list r e l -> ends r e.
  Proof. induction 1 as [e H|e m l H _ IH|e t l l' H _ IH _]; [now apply en_plain|eapply en_mirror|eapply en_extend]; eassumption. Qed.
  Lemma item_list_ends e l : item_list r e l -> ends r e.
  Proof. induction 1 as [e H|e m l H _ IH|e t l H _ IH]; [now apply en_plain|eapply en_mirror|eapply en_extend]; eassumption. Qed.
End Lists.

Lemma readable_is t k : readable t k = accepts k t. Proof. destruct t, k; reflexivity. Qed.

Section Queries.
  Context (c0 : ctx) (HD : Doc (c_heap c0)).
  Let r := c_heap c0.
  Let inp := c_input c0.
  Notation Inv := (Inv c0).

  Lemma touched_inv o s : Inv s -> Inv (upd_obj o with_touched s) /\ ext s (upd_obj o with_touched s).
  Proof. intro HI. exact (ok_touch c0 o s HI). Qed.
  Lemma touched_get o s i : oget (upd_obj o with_touched s) i = if (Nat.eqb o i && Nat.ltb o (length (s_objs s)))%bool then with_touched (oget s o) else oget s i.
  Proof. apply oget_upd_obj. Qed.

  (** reading the children with a key: the same for sections and fieldsets *)
  Record Hits (children : nat -> sM (list nat)) (cl : class) (o : nat) (key : option text) (s s' : st) (ids ys hits : list nat) : Prop := {
    hi_run : by_key children o key (upd_obj o with_touched s) = (s', Ok ys);
    hi_inv : Inv s';
    hi_ext : ext s s';
    hi_kids : o_children (oget s' o) = Some ids;
    hi_old : forall l, o_children (oget s o) = Some l -> ids = l;
    hi_ys : ys = filter (fun y => keyed r key (o_instr (oget s' y))) ids;
    hi_hits : map (fun y => o_instr (oget s' y)) ys = hits;
    hi_req : o_req (oget s' o) = o_req (oget s o);
    hi_each : forall y, In y ids -> is_obj s' y (child_class cl) (o_instr (oget s' y)) (Some o);
    (** only children made now are new, and these were not read yet; the others are as before *)
    hi_fresh : forall y, In y ids -> (o_children (oget s o) = None -> forall k, yield_slot k (oget s' y) = None) /\
                                     (o_children (oget s o) <> None -> y < length (s_objs s) /\ oget s' y = oget s y)
  }.
  Lemma hits_any children cl o e key s : children_spec c0 children cl -> (cl = CSection \/ cl = CFieldset) -> Inv s -> names s o cl e ->
    exists s' v ids, by_key children o key (upd_obj o with_touched s) = (s', v) /\
      (v = Raise Fuel /\ ~ ends r e /\ o_children (oget s o) = None \/ exists ys, v = Ok ys /\ Hits children cl o key s s' ids ys (map (fun y => o_instr (oget s' y)) ys)).
  Proof.
    intros Hch Hcl HI (Ho & Hc & He). destruct (touched_inv o s HI) as [HI1 HX1]. set (s1 := upd_obj o with_touched s) in *.
    assert (HV1 : valid s1 o cl) by (apply (valid_ext _ _ _ _ HX1); split; assumption).
    destruct (by_key_is c0 HD children cl o key s1 Hch Hcl HI1 HV1) as (s' & v & ids & E & HI' & HX' & HM & Hv).
    exists s', v, ids. split; [exact E|].
    assert (Eo : oget s1 o = with_touched (oget s o)).
    { subst s1. rewrite touched_get, Nat.eqb_refl. destruct (Nat.ltb_spec o (length (s_objs s))); [reflexivity|lia]. }
    destruct Hv as [-> | (-> & Hn & Hn2)]; [right|left; rewrite Eo in Hn, Hn2; cbn in Hn, Hn2; rewrite He in Hn; auto].
    exists (filter (fun y => keyed r key (o_instr (oget s' y))) ids). split; [reflexivity|].
    assert (Hlen : length (s_objs s1) = length (s_objs s)) by (subst s1; unfold upd_obj; cbn; apply upd_length).
    assert (Eoth : forall i, i <> o -> oget s1 i = oget s i). { intros i Hi. subst s1. rewrite touched_get. destruct (Nat.eqb_spec o i); [congruence|reflexivity]. }
    pose proof (made_kids _ _ _ _ _ HM) as Hk. pose proof (valid_ext _ _ _ _ HX' HV1) as [V1 V2].
    pose proof (oo_kids _ _ _ _ (iv_obj _ _ HI' o V1) ids Hk) as HK.
    assert (He' : o_instr (oget s' o) = e). { destruct (ex_obj _ _ (ext_trans _ _ _ HX1 HX') o Ho) as [_ -> _ _ _ _ _]. assumption. }
    split.
    - exact E.
    - exact HI'.
    - eapply ext_trans; eassumption.
    - exact Hk.
    - intros l Hl. destruct (ex_obj _ _ (ext_trans _ _ _ HX1 HX') o Ho) as [_ _ _ _ X _ _]. destruct (X l Hl) as [X1 _]. congruence.
    - reflexivity.
    - reflexivity.
    - destruct (md_self _ _ _ _ _ HM) as (m & ->). rewrite Eo. reflexivity.
    - intros y Hy. destruct (kid_valid c0 s' o ids y HI' V1 Hk Hy) as ([A1 A2] & A3 & A4). rewrite V2 in A2. repeat split; assumption.
    - intros y Hy. destruct (kid_valid c0 s' o ids y HI' V1 Hk Hy) as ([A1 A2] & A3 & A4). split.
      + intros Hn k. destruct (Nat.lt_ge_cases y (length (s_objs s1))) as [Hlt|Hge].
        * exfalso. rewrite (md_rest _ _ _ _ _ HM y) in A3 by lia.
          pose proof (oo_home _ _ _ _ (iv_obj _ _ HI1 y Hlt) o A3) as HH. rewrite (md_rest _ _ _ _ _ HM y) in A2 by lia. rewrite V2 in A2. rewrite A2 in HH.
          rewrite Eo in HH. assert (exists l, o_children (with_touched (oget s o)) = Some l /\ In y l) as (l & Hl & _) by (destruct Hcl as [-> | ->]; exact HH).
          cbn in Hl. congruence.
        * destruct (md_new _ _ _ _ _ HM y) as (e' & ->); [lia|]. now destruct k.
      + intro Hn. destruct (o_children (oget s o)) as [l|] eqn:El; [|contradiction].
        assert (ids = l) as -> by (destruct (ex_obj _ _ (ext_trans _ _ _ HX1 HX') o Ho) as [_ _ _ _ X _ _]; destruct (X l El) as [X1 _]; congruence).
        destruct (kid_valid c0 s o l y HI Ho El Hy) as ([B1 _] & _ & B2). split; [assumption|]. rewrite (md_rest _ _ _ _ _ HM y) by lia. apply Eoth. lia.
  Qed.
  Lemma hits_list children cl o key s s' ids ys hits L : Inv s -> valid s o cl -> (forall l, kid_list c0 cl (o_instr (oget s o)) l -> l = L) ->
    ends r (o_instr (oget s o)) -> Hits children cl o key s s' ids ys hits -> hits = filter (keyed r key) L.
  Proof.
    intros HI HV HL Hends [E HI' HX Hk Hold Hys Hhits Hreq Heach Hfr]. pose proof (valid_ext _ _ _ _ HX HV) as [V1 V2].
    pose proof (oo_kids _ _ _ _ (iv_obj _ _ HI' o V1) ids Hk) as HK. pose proof (xe_instr _ _ (ex_obj _ _ HX o (proj1 HV))) as Ei.
    rewrite <- Hhits, Hys. rewrite <- (HL (map (fun y => o_instr (oget s' y)) ids)).
    - clear. induction ids as [|y l IH]; [reflexivity|]. cbn [map filter]. destruct (keyed r key (o_instr (oget s' y))); cbn [map]; now rewrite IH.
    - rewrite <- V2, <- Ei. apply (ki_list _ _ _ _ _ HK). fold r. now rewrite Ei.
  Qed.
  Lemma hits_of children cl o e key s L : children_spec c0 children cl -> (cl = CSection \/ cl = CFieldset) -> Inv s -> names s o cl e -> ends r e ->
    (forall l, kid_list c0 cl e l -> l = L) -> exists s' ids ys, Hits children cl o key s s' ids ys (filter (keyed r key) L).
  Proof.
    intros Hch Hcl HI HN Hends HL. destruct (hits_any children cl o e key s Hch Hcl HI HN) as (s' & v & ids & E & [(_ & Hn & _)|(ys & -> & HH)]); [contradiction|].
    exists s', ids, ys. destruct HN as (Ho & Hc & He). rewrite <- He in HL, Hends.
    rewrite <- (hits_list children cl o key s s' ids ys _ L HI (conj Ho Hc) HL Hends HH). exact HH.
  Qed.
  Lemma hits_section o e key s L : Inv s -> names s o CSection e -> element_list r e L -> exists s' ids ys, Hits section_children CSection o key s s' ids ys (filter (keyed r key) L).
  Proof. intros HI HN HL. apply (hits_of _ _ o e); auto; [now apply section_spec|now apply (element_list_ends r e L)|]. intros l Hl. cbn in Hl. now apply (element_list_fun r HD e). Qed.
  Lemma hits_fieldset o e key s L : Inv s -> names s o CFieldset e -> entry_list r e L -> exists s' ids ys, Hits fieldset_children CFieldset o key s s' ids ys (filter (keyed r key) L).
  Proof. intros HI HN HL. apply (hits_of _ _ o e); auto; [now apply fieldset_spec|now apply (entry_list_ends r e L)|]. intros l Hl. cbn in Hl. now apply (entry_list_fun r HD e). Qed.

  (** an element read otherwise, told by its object *)
  Definition other_slot (k : kind) (x : obj) : Prop := exists j y, j <> k /\ yield_slot j x = Some y.
  Lemma read_otherwise_is key o e s s' L ids ys z k : Inv s -> element_list r e L -> names s o CSection e -> Hits section_children CSection o key s s' ids ys (filter (keyed r key) L) ->
    In z ids -> read_otherwise s o (o_instr (oget s' z)) k <-> other_slot k (oget s' z).
  Proof.
    intros HI HL HN [E HI' HX Hk Hold Hys Hhits Hreq Heach Hfr] Hz. destruct (Hfr z Hz) as [F1 F2]. split.
    - intros (l & z' & j & y & Hl & Hz' & Hi & Hj & Hy). assert (ids = l) as -> by auto. destruct F2 as [F2 F3]; [congruence|].
      assert (z' = z) as ->; [|exists j, y; now rewrite F3].
      destruct HN as (Ho & Hc & He). pose proof (oo_kids _ _ _ _ (iv_obj _ _ HI o Ho) l Hl) as HK. pose proof (ki_list _ _ _ _ _ HK) as HL2. rewrite Hc, He in HL2. specialize (HL2 (element_list_ends r e L HL)). cbn in HL2.
      rewrite F3 in Hi. pose proof (element_list_nodup r HD e _ HL2) as N. clear - N Hz Hz' Hi.
      induction l as [|a l IH]; [destruct Hz|]. cbn in N. apply NoDup_cons_iff in N as [N1 N2]. destruct Hz as [->|Hz], Hz' as [->|Hz'].
      + reflexivity.
      + exfalso. apply N1. rewrite <- Hi. now apply (in_map (fun y => o_instr (oget s y))).
      + exfalso. apply N1. rewrite Hi. now apply (in_map (fun y => o_instr (oget s y))).
      + now apply IH.
    - intros (j & y & Hj & Hy). destruct (o_children (oget s o)) as [l|] eqn:El.
      + assert (ids = l) as -> by auto. destruct F2 as [F2 F3]; [congruence|]. rewrite F3 in *. exists l, z, j, y. repeat split; assumption.
      + rewrite F1 in Hy by reflexivity. discriminate.
  Qed.

  Lemma blind_type k e q : blind (fun c => v_unexpected_element_type c k e q). Proof. intro c. apply strip_element_type. Qed.
  Lemma blind_missing k e q : blind (fun c => v_missing_element c k e q). Proof. intro c. apply strip_missing_element. Qed.
  Lemma blind_multiple k es q : blind (fun c => v_unexpected_multiple_elements c k es q). Proof. intro c. apply strip_multiple. Qed.

  Lemma ext_is_obj s s' o cl e p : ext s s' -> is_obj s o cl e p -> is_obj s' o cl e p.
  Proof. intros [L H] (A & B & C & D). destruct (H o A) as [X1 X2 X3 _ _ _ _]. repeat split; [lia|congruence..]. Qed.

  (** what yielding gives *)
  Lemma to_kind_cases k z s : Inv s -> z < length (s_objs s) -> o_class (oget s z) = CSectionElement -> accepts k (n_type (hget r (o_instr (oget s z)))) = true ->
    (exists s' y, to_kind k z s = (s', Ok y) /\ is_obj s' y (kind_class k) (o_instr (oget s z)) (o_parent (oget s z)) /\ ~ other_slot k (oget s z) /\ Inv s' /\ ext s s' /\
       (s' = s \/ s' = yield_new k z s)) \/
    (to_kind k z s = (s, Raise TypeError) /\ other_slot k (oget s z)).
  Proof.
    intros HI Hz Hc Ha. assert (Hel : is_elem (o_class (oget s z)) = true) by now rewrite Hc.
    pose proof (to_kind_is c0 k z s HI Hz Hel) as E. pose proof (to_kind_ok c0 k z s HI Hz Hel) as [K1 K2]. fold r in E. rewrite Ha in E.
    destruct (yield_slot k (oget s z)) as [y|] eqn:Es.
    - left. rewrite E in K1, K2. exists s, y. split; [assumption|]. destruct (to_kind_valid c0 k z s s y HI Hz Hel E) as ([A1 A2] & A3 & A4 & _). split; [repeat split; assumption|].
      split; [|auto]. intros (j & y' & Hj & Hy'). apply Hj. eapply (slot_unique c0 s z); eassumption.
    - assert (G : o_yielded (oget s z) = None -> to_kind k z s = (yield_new k z s, Ok (length (s_objs s))) ->
        exists s' y, to_kind k z s = (s', Ok y) /\ is_obj s' y (kind_class k) (o_instr (oget s z)) (o_parent (oget s z)) /\ ~ other_slot k (oget s z) /\ Inv s' /\ ext s s' /\ (s' = s \/ s' = yield_new k z s)).
      { intros Hy E'. rewrite E' in K1, K2. exists (yield_new k z s), (length (s_objs s)). split; [assumption|]. destruct (to_kind_valid c0 k z s _ _ HI Hz Hel E') as ([A1 A2] & A3 & A4 & _).
        split; [repeat split; assumption|]. split; [|auto]. intros (j & y' & _ & Hy'). rewrite (no_slots c0 s z HI Hz Hy j) in Hy'. discriminate. }
      destruct (o_yielded (oget s z)) as [t|] eqn:Ey.
      + destruct (oo_yield _ _ _ _ (iv_obj _ _ HI z Hz) t Ey) as (j & y & Hj).
        assert (Hjk : j <> k) by (intros ->; congruence).
        right. split; [|exists j, y; auto]. destruct k; try exact E.
        pose proof (yielded_section c0 s z t HI Hz Ey Es) as F. fold r in F. congruence.
      + left. apply G; [reflexivity|]. destruct k; exact E.
  Qed.

  Lemma none_found_is (req : option bool) o e key q mq m s s' : Inv s' -> o_req (oget s' o) = o_req (oget s o) -> o_instr (oget s' o) = e -> mq = q ->
    (if (match req with Some true => true | _ => false end || o_req (oget s' o))%bool
     then fail (fun c => v_missing_element c key (o_instr (oget s' o)) mq)
     else match req with None => ret (FMissing m) | Some _ => ret FNone end) s' = (s', none_found req (o_req (oget s o)) (v_missing_element c0 key e q) m).
  Proof.
    intros HI Hr He ->. rewrite Hr, He. destruct req as [[|]|], (o_req (oget s o)); cbn [orb]; try reflexivity; rewrite (fail_is c0) by (auto using blind_missing); reflexivity.
  Qed.
  Lemma query_answer what o e key req s L : Inv s -> names s o CSection e -> element_list r e L ->
    single_answer c0 s (fst (query what o key req s)) what o e key req (filter (keyed r key) L) (snd (query what o key req s)).
  Proof.
    intros HI HN HL. destruct (hits_section o e key s L HI HN HL) as (s' & ids & ys & HH). pose proof HH as [E HI' HX Hk Hold Hys Hhits Hreq Heach Hfr].
    destruct (query what o key req s) as [sf v] eqn:EQ. unfold query in EQ. unfold mbind at 1, touch_obj, oset in EQ. unfold mbind at 1 in EQ. rewrite E in EQ. unfold mbind at 1, the_obj in EQ.
    cbn [fst snd].
    pose proof HN as (Ho & Hc & He). assert (He' : o_instr (oget s' o) = e) by (destruct (ex_obj _ _ HX o Ho) as [_ -> _ _ _ _ _]; assumption).
    set (hits := filter (keyed r key) L) in *. unfold single_answer. destruct ys as [|y1 [|y2 ys]]; cbn [map] in Hhits; rewrite <- Hhits.
    - rewrite (none_found_is req o e key (missing_message what) _ _ s s' HI' Hreq He') in EQ by (now destruct what as [[]|]). injection EQ as _ <-. now destruct what as [[]|].
    - assert (In y1 ids) as Hin. { assert (In y1 [y1]) as Hy by now left. rewrite Hys in Hy. now apply filter_In in Hy. }
      pose proof (Heach y1 Hin) as HO. destruct what as [kd|]; [|injection EQ as <- <-; exists y1; split; [reflexivity|exact HO]].
      unfold mbind at 1 in EQ. unfold mbind at 1, inode in EQ. rewrite readable_is. rewrite (type_is c0) in EQ by assumption. fold r in EQ |- *.
      pose proof (read_otherwise_is key o e s s' L ids [y1] y1 kd HI HL HN HH Hin) as HRO. destruct HO as (O1 & O2 & O3 & O4).
      destruct (accepts kd (n_type (hget r (o_instr (oget s' y1))))) eqn:Ea.
      + unfold mbind in EQ. destruct (to_kind_cases kd y1 s' HI' O1 O2 Ea) as [(s2 & y & Et & Hy & Hno & _)|[Et Hot]]; rewrite Et in EQ; injection EQ as <- <-.
        * left. exists y. split; [reflexivity|]. rewrite O4 in Hy. split; [exact Hy|]. now rewrite HRO.
        * right. split; [reflexivity|]. now rewrite HRO.
      + rewrite (fail_is c0) in EQ by (auto using blind_type). injection EQ as _ <-. now destruct kd.
    - unfold mbind, get in EQ. rewrite (fail_is c0) in EQ by (auto using blind_multiple). injection EQ as _ <-. now destruct what as [[]|].
  Qed.
  Lemma entry_answer o e key req s L : Inv s -> names s o CFieldset e -> entry_list r e L ->
    entry_answers c0 s (fst (entry_query o key req s)) o e key req (filter (keyed r key) L) (snd (entry_query o key req s)).
  Proof.
    intros HI HN HL. destruct (hits_fieldset o e key s L HI HN HL) as (s' & ids & ys & [E HI' HX Hk Hold Hys Hhits Hreq Heach Hfr]).
    destruct (entry_query o key req s) as [sf v] eqn:EQ. unfold entry_query in EQ. unfold mbind at 1, touch_obj, oset in EQ. unfold mbind at 1 in EQ. rewrite E in EQ. unfold mbind at 1, the_obj in EQ.
    cbn [fst snd].
    pose proof HN as (Ho & Hc & He). assert (He' : o_instr (oget s' o) = e) by (destruct (ex_obj _ _ HX o Ho) as [_ -> _ _ _ _ _]; assumption).
    set (hits := filter (keyed r key) L) in *. unfold entry_answers. destruct ys as [|y1 [|y2 ys]]; cbn [map] in Hhits; rewrite <- Hhits.
    - rewrite (none_found_is req o e key Q_missing_fieldset_entry _ _ s s' HI' Hreq He') in EQ by reflexivity. now injection EQ as _ <-.
    - assert (In y1 ids) as Hin. { assert (In y1 [y1]) as Hy by now left. rewrite Hys in Hy. now apply filter_In in Hy. }
      injection EQ as <- <-. exists y1. split; [reflexivity|exact (Heach y1 Hin)].
    - unfold mbind, get in EQ. rewrite (fail_is c0) in EQ by (auto using blind_multiple). now injection EQ as _ <-.
  Qed.

  (** ** Several *)
  Definition fine (k : kind) (s : st) (y : nat) : Prop := accepts k (n_type (hget r (o_instr (oget s y)))) = true /\ ~ other_slot k (oget s y).
  Lemma other_slot_yield k y0 s y : y0 < length (s_objs s) -> y < length (s_objs s) -> other_slot k (oget (yield_new k y0 s) y) <-> other_slot k (oget s y).
  Proof.
    intros H0 H1. destruct (Nat.eq_dec y y0) as [->|Hne]; [|now rewrite yield_get_old]. rewrite yield_get_self by assumption.
    split; intros (j & z & Hj & Hz); exists j, z; split; [assumption| |assumption|].
    - rewrite slot_yield in Hz. destruct (class_eqb (kind_class j) (kind_class k)) eqn:Ej; [|assumption]. apply class_eqb_eq, kind_class_inj in Ej. contradiction.
    - rewrite slot_yield. destruct (class_eqb (kind_class j) (kind_class k)) eqn:Ej; [|assumption]. apply class_eqb_eq, kind_class_inj in Ej. contradiction.
  Qed.
  Definition convert (k : kind) (key : option text) (q : qmsg) (e : nat) : sM nat :=
    let! ox := the_obj e in
    let! n := inode (o_instr ox) in
    if accepts k (n_type n) then to_kind k e
    else fail (fun c => v_unexpected_element_type c key (o_instr ox) q).
  Lemma convert_all k key q ys : forall s, Inv s -> (forall y, In y ys -> valid s y CSectionElement) ->
    let (s', v) := mapM (convert k key q) ys s in ext s s' /\
    ((exists zs, v = Ok zs /\ Forall2 (fun z y => is_obj s' z (kind_class k) (o_instr (oget s y)) (o_parent (oget s y))) zs ys /\ Forall (fine k s) ys) \/
     (exists b y a, ys = b ++ y :: a /\ Forall (fine k s) b /\
        if accepts k (n_type (hget r (o_instr (oget s y)))) then v = Raise TypeError /\ other_slot k (oget s y)
        else v = raised (v_unexpected_element_type c0 key (o_instr (oget s y)) q))).
  Proof.
    induction ys as [|y ys IH]; intros s HI HV; cbn [mapM].
    - split; [apply ext_refl|]. left. exists []. repeat split; constructor.
    - destruct (HV y (or_introl eq_refl)) as [Hy Hc]. unfold mbind at 1. unfold convert at 1. unfold mbind at 1, the_obj. unfold mbind at 1, inode.
      rewrite (type_is c0) by assumption. fold r. destruct (accepts k (n_type (hget r (o_instr (oget s y))))) eqn:Ea.
      + destruct (to_kind_cases k y s HI Hy Hc Ea) as [(s1 & z & Et & Hz & Hno & HI1 & HX1 & Hs1)|[Et Hot]]; rewrite Et.
        * assert (HV1 : forall y', In y' ys -> valid s1 y' CSectionElement) by (intros y' Hy'; apply (valid_ext _ _ _ _ HX1), HV; now right).
          specialize (IH s1 HI1 HV1). unfold mbind. destruct (mapM (convert k key q) ys s1) as [s2 v]. destruct IH as [HX2 IH].
          assert (HG : forall y', In y' ys -> (fine k s1 y' <-> fine k s y') /\ o_instr (oget s1 y') = o_instr (oget s y') /\ o_parent (oget s1 y') = o_parent (oget s y') /\ (other_slot k (oget s1 y') <-> other_slot k (oget s y'))).
          { intros y' Hy'. destruct (HV y' (or_intror Hy')) as [Hy2 _]. destruct (ex_obj _ _ HX1 y' Hy2) as [_ E1 E2 _ _ _ _].
            assert (other_slot k (oget s1 y') <-> other_slot k (oget s y')) as E3 by (destruct Hs1 as [-> | ->]; [reflexivity|now apply other_slot_yield]).
            unfold fine. rewrite E1, E3. repeat split; auto; tauto. }
          assert (HX : ext s s2) by (eapply ext_trans; eassumption).
          destruct IH as [(zs & -> & F1 & F2)|(b & y1 & a & -> & F1 & F2)].
          -- cbv beta iota delta [ret]. split; [exact HX|]. left. exists (z :: zs). split; [reflexivity|]. split.
             ++ constructor; [now apply (ext_is_obj s1)|].
                clear - F1 HG. induction F1 as [|z' y' zs ys F1 _ IH]; constructor.
                ** destruct (HG y' (or_introl eq_refl)) as (_ & <- & <- & _). exact F1.
                ** apply IH. intros y2 Hy2. apply HG. now right.
             ++ constructor; [split; assumption|]. apply Forall_forall. intros y' Hy'. apply HG; [assumption|]. rewrite Forall_forall in F2. now apply F2.
          -- assert (exists x, v = Raise x) as [x ->].
             { destruct (accepts k (n_type (hget r (o_instr (oget s1 y1))))); [destruct F2 as [-> _]; eauto|]. rewrite F2. unfold raised. destruct (v_unexpected_element_type _ _ _ _); eauto. }
             split; [exact HX|]. right. exists (y :: b), y1, a. split; [reflexivity|]. split.
             ++ constructor; [split; assumption|]. apply Forall_forall. intros y' Hy'. apply HG; [apply in_or_app; now left|]. rewrite Forall_forall in F1. now apply F1.
             ++ destruct (HG y1) as (_ & <- & _ & HO); [apply in_or_app; right; now left|].
                destruct (accepts k (n_type (hget r (o_instr (oget s1 y1))))).
                ** destruct F2 as [F2 F3]. split; [congruence|now apply HO].
                ** revert F2. unfold raised. destruct (v_unexpected_element_type _ _ _ _); intro F2; congruence.
        * split; [apply ext_refl|]. right. exists [], y, ys. split; [reflexivity|]. split; [constructor|]. rewrite Ea. now split.
      + rewrite (fail_is c0) by (auto using blind_type).
        assert (exists x, @raised nat (v_unexpected_element_type c0 key (o_instr (oget s y)) q) = Raise x /\ @raised (list nat) (v_unexpected_element_type c0 key (o_instr (oget s y)) q) = Raise x) as (x & E1 & E2)
          by (unfold raised; destruct (v_unexpected_element_type _ _ _ _); eauto).
        rewrite E1. split; [apply ext_refl|].
        right. exists [], y, ys. split; [reflexivity|]. split; [constructor|]. rewrite Ea. now rewrite E2.
  Qed.
  Lemma Forall_map_iff {A B} (f : A -> B) (P : B -> Prop) l : Forall P (map f l) <-> Forall (fun x => P (f x)) l.
  Proof. induction l as [|x l IH]; cbn; split; intro H; constructor; inversion H; subst; auto; now apply IH. Qed.
  Lemma plural_answers k o e key s L : Inv s -> names s o CSection e -> element_list r e L ->
    plural_answer c0 s (fst (plural k o key s)) k o key (filter (keyed r key) L) (snd (plural k o key s)).
  Proof.
    intros HI HN HL. destruct (hits_section o e key s L HI HN HL) as (s' & ids & ys & HH). pose proof HH as [E HI' HX Hk Hold Hys Hhits Hreq Heach Hfr].
    destruct (plural k o key s) as [sf v] eqn:EQ. unfold plural in EQ. unfold mbind at 1, touch_obj, oset in EQ. unfold mbind at 1 in EQ. rewrite E in EQ. change (mapM (convert k key (plural_msg k)) ys s' = (sf, v)) in EQ.
    assert (Hin : forall y, In y ys -> In y ids). { intros y Hy. rewrite Hys in Hy. now apply filter_In in Hy. }
    assert (HV : forall y, In y ys -> valid s' y CSectionElement). { intros y Hy. destruct (Heach y (Hin y Hy)) as (A1 & A2 & _). now split. }
    pose proof (convert_all k key (plural_msg k) ys s' HI' HV) as G. rewrite EQ in G. destruct G as [_ G]. rewrite <- Hhits. cbn [fst snd]. unfold plural_answer.
    assert (HF : forall y, In y ys -> fine k s' y -> readable (n_type (hget r (o_instr (oget s' y)))) k = true /\ ~ read_otherwise s o (o_instr (oget s' y)) k).
    { intros y Hy [F1 F2]. rewrite readable_is. split; [assumption|]. now rewrite (read_otherwise_is key o e s s' L ids ys y k HI HL HN HH (Hin y Hy)). }
    destruct G as [(zs & -> & F1 & F2)|(b & y & a & -> & F1 & F2)].
    - left. exists zs. split; [reflexivity|]. split.
      + clear - F1 Heach Hin. induction F1 as [|z y zs ys F1 _ IH]; constructor.
        * destruct (Heach y (Hin y (or_introl eq_refl))) as (_ & _ & _ & <-). exact F1.
        * apply IH. intros y' Hy'. apply Hin. now right.
      + apply Forall_map_iff. apply Forall_forall. intros y Hy. apply HF; [assumption|]. rewrite Forall_forall in F2. now apply F2.
    - right. exists (map (fun y => o_instr (oget s' y)) b), (o_instr (oget s' y)), (map (fun y => o_instr (oget s' y)) a). split; [now rewrite map_app|]. split.
      + apply Forall_map_iff. apply Forall_forall. intros y' Hy. apply HF; [apply in_or_app; now left|]. rewrite Forall_forall in F1. now apply F1.
      + assert (Hy : In y (b ++ y :: a)) by (apply in_or_app; right; now left). rewrite readable_is. fold r in F2 |- *.
        pose proof (read_otherwise_is key o e s s' L ids (b ++ y :: a) y k HI HL HN HH (Hin y Hy)) as HO.
        destruct (accepts k (n_type (hget r (o_instr (oget s' y))))); [|now destruct k]. destruct F2 as [F2 F3]. split; [assumption|now apply HO].
  Qed.

  (** ** Lists of children *)
  Lemma ids_list s (P : nat -> nat -> Prop) ids : (forall y, In y ids -> P y (o_instr (oget s y))) -> Forall2 P ids (map (fun y => o_instr (oget s y)) ids).
  Proof. intro H. induction ids as [|y l IH]; cbn; constructor; [apply H; now left|]. apply IH. intros z Hz. apply H. now right. Qed.
  Lemma elements_answer o e key s L : Inv s -> names s o CSection e -> element_list r e L ->
    exists ys, snd (section_elements o key s) = Ok ys /\ Forall2 (fun y x => is_obj (fst (section_elements o key s)) y CSectionElement x (Some o)) ys (filter (keyed r key) L).
  Proof.
    intros HI HN HL. destruct (hits_section o e key s L HI HN HL) as (s' & ids & ys & [E HI' HX Hk Hold Hys Hhits Hreq Heach Hfr]).
    unfold section_elements, mbind, touch_obj, oset. rewrite E. exists ys. split; [reflexivity|]. cbn [fst]. rewrite <- Hhits. apply ids_list.
    intros y Hy. rewrite Hys in Hy. apply filter_In in Hy as [Hy _]. exact (Heach y Hy).
  Qed.
  Lemma entries_answer o e key s L : Inv s -> names s o CFieldset e -> entry_list r e L ->
    exists ys, snd (fieldset_entries o key s) = Ok ys /\ Forall2 (fun y x => is_obj (fst (fieldset_entries o key s)) y CEntry x (Some o)) ys (filter (keyed r key) L).
  Proof.
    intros HI HN HL. destruct (hits_fieldset o e key s L HI HN HL) as (s' & ids & ys & [E HI' HX Hk Hold Hys Hhits Hreq Heach Hfr]).
    unfold fieldset_entries, mbind, touch_obj, oset. rewrite E. exists ys. split; [reflexivity|]. cbn [fst]. rewrite <- Hhits. apply ids_list.
    intros y Hy. rewrite Hys in Hy. apply filter_In in Hy as [Hy _]. exact (Heach y Hy).
  Qed.
  Lemma items_answer o e s L : Inv s -> names s o CList e -> item_list r e L ->
    exists ys, snd (list_items o s) = Ok ys /\ Forall2 (fun y x => is_obj (fst (list_items o s)) y CItem x (Some o)) ys L.
  Proof.
    intros HI (Ho & Hc & He) HL. destruct (touched_inv o s HI) as [HI1 HX1]. set (s1 := upd_obj o with_touched s) in *.
    assert (HV1 : valid s1 o CList) by (apply (valid_ext _ _ _ _ HX1); split; assumption).
    destruct (list_spec c0 HD o s1 HI1 HV1) as (s' & v & ids & E & HI' & HX' & HM & Hgot).
    assert (E1 : o_instr (oget s1 o) = e) by (rewrite (xe_instr _ _ (ex_obj _ _ HX1 o Ho)); assumption).
    destruct Hgot as [-> | (_ & Hn & _)]; [|exfalso; apply Hn; rewrite E1; now apply (item_list_ends r e L)].
    unfold list_items, mbind, touch_obj, oset. fold s1. rewrite E. exists ids. split; [reflexivity|]. cbn [fst].
    pose proof (made_kids _ _ _ _ _ HM) as Hk. pose proof (valid_ext _ _ _ _ HX' HV1) as [V1 V2].
    pose proof (oo_kids _ _ _ _ (iv_obj _ _ HI' o V1) ids Hk) as HK.
    assert (He' : o_instr (oget s' o) = e). { destruct (ex_obj _ _ (ext_trans _ _ _ HX1 HX') o Ho) as [_ -> _ _ _ _ _]. assumption. }
    pose proof (ki_list _ _ _ _ _ HK) as HL2. rewrite V2, He' in HL2. specialize (HL2 (item_list_ends r e L HL)). cbn in HL2. rewrite (item_list_fun r e L HL _ HL2). apply ids_list.
    intros y Hy. destruct (kid_valid c0 s' o ids y HI' V1 Hk Hy) as ([A1 A2] & A3 & A4). rewrite V2 in A2. repeat split; assumption.
  Qed.
End Queries.
