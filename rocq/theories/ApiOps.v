(** ApiOps: what each operation of the element API does to a consistent state. *)
From Verif Require Import Base Types Messages Resolver Reporter Errors Context Elements SpecTree SpecRead SpecApi SpecQuery Reads ErrorCaches ApiDoc ApiInv ApiState.

Section Ops.
  Context (c0 : ctx) (HD : Doc (c_heap c0)).
  Let r := c_heap c0.
  Let inp := c_input c0.
  Notation Inv := (Inv c0).
  Notation ok := (ok c0).

  (** ** Errors *)
  Lemma ctx_strip s : Inv s -> strip_ctx (s_ctx s) = strip_ctx c0.
  Proof.
    intros [[C1 C2] _]. unfold strip_ctx. rewrite C1. unfold with_heap. cbn. f_equal. apply strip_same; [apply C2|]. intro i. apply C2.
  Qed.
  Definition blind (f : ctx -> res eno_error) : Prop := forall c, f (strip_ctx c) = f c.
  Lemma fail_is {A} f s : Inv s -> blind f -> @fail A f s = (s, raised (f c0)).
  Proof.
    intros HI Hf. unfold fail, mbind, the_ctx. rewrite <- (Hf (s_ctx s)), (ctx_strip s HI), Hf. unfold raised, raise. destruct (f c0); reflexivity.
  Qed.
  Lemma type_is s e : Inv s -> n_type (hget (c_heap (s_ctx s)) e) = n_type (hget r e).
  Proof. intros [[_ C2] _]. apply (ca_type _ _ _ _ C2). Qed.

  (** ** Yielding *)
  Definition yield_obj (k : kind) (e : nat) (s : st) : obj :=
    MkObj (kind_class k) (o_instr (oget s e)) (o_parent (oget s e)) false
      (match k, o_parent (oget s e) with KSection, Some p | KFieldset, Some p => o_req (oget s p) | _, _ => false end)
      None [] None None None None None None.
  Definition yield_new (k : kind) (e : nat) (s : st) : st :=
    MkSt (s_ctx s) (upd (s_objs s) e (with_yield k (length (s_objs s))) ++ [yield_obj k e s]).

  Lemma slot_yield k j x o : yield_slot j (with_yield k x o) = if class_eqb (kind_class j) (kind_class k) then Some x else yield_slot j o.
  Proof. destruct j, k; reflexivity. Qed.
  Lemma yield_get_old k e s i : i < length (s_objs s) -> i <> e -> oget (yield_new k e s) i = oget s i.
  Proof. intros H1 H2. unfold oget, yield_new. cbn [s_objs]. rewrite app_nth1 by now rewrite upd_length. apply nth_upd_neq. congruence. Qed.
  Lemma yield_get_self k e s : e < length (s_objs s) -> oget (yield_new k e s) e = with_yield k (length (s_objs s)) (oget s e).
  Proof. intros H1. unfold oget, yield_new. cbn [s_objs]. rewrite app_nth1 by now rewrite upd_length. now apply nth_upd_eq. Qed.
  Lemma yield_get_new k e s : oget (yield_new k e s) (length (s_objs s)) = yield_obj k e s.
  Proof. unfold oget, yield_new. cbn [s_objs]. rewrite app_nth2 by (rewrite upd_length; lia). rewrite upd_length, Nat.sub_diag. reflexivity. Qed.
  Lemma yield_len k e s : length (s_objs (yield_new k e s)) = S (length (s_objs s)).
  Proof. unfold yield_new. cbn [s_objs]. rewrite app_length, upd_length. cbn. lia. Qed.

  Lemma no_slots s e : Inv s -> e < length (s_objs s) -> o_yielded (oget s e) = None -> forall k, yield_slot k (oget s e) = None.
  Proof.
    intros HI He Hy k. destruct (yield_slot k (oget s e)) as [y|] eqn:E; [|reflexivity]. exfalso.
    destruct (oo_slot _ _ _ _ (iv_obj _ _ HI e He) k y E) as (_ & _ & _ & _ & _ & G & _). congruence.
  Qed.
  Lemma kind_class_inj j k : kind_class j = kind_class k -> j = k. Proof. destruct j, k; cbn; congruence. Qed.
  Lemma class_eqb_eq a b : class_eqb a b = true <-> a = b. Proof. split; [destruct a, b; cbn; congruence|intros ->; destruct b; reflexivity]. Qed.

  Lemma yield_ok k e s : Inv s -> e < length (s_objs s) -> is_elem (o_class (oget s e)) = true -> o_yielded (oget s e) = None ->
    accepts k (n_type (hget r (o_instr (oget s e)))) = true -> Inv (yield_new k e s) /\ ext s (yield_new k e s).
  Proof.
    intros HI He Hel Hy Hacc. pose proof (no_slots s e HI He Hy) as Hns. set (s' := yield_new k e s). set (n := length (s_objs s)).
    assert (HX : ext s s').
    { split; [subst s'; rewrite yield_len; lia|]. intros i Hi. destruct (Nat.eq_dec i e) as [->|Hne].
      - subst s'. rewrite yield_get_self by assumption. split; cbn; auto.
        + intros j z Hz. rewrite Hns in Hz. discriminate.
        + congruence.
      - subst s'. rewrite yield_get_old by assumption. apply obj_ext_refl. }
    split; [|assumption]. split; [apply HI|]. intros i Hi. subst s'. rewrite yield_len in Hi. destruct (Nat.eq_dec i (length (s_objs s))) as [->|Hin].
    - rewrite yield_get_new. pose proof (iv_obj _ _ HI e He) as [G1 G2 G3 G4 G5 G6 G7]. unfold yield_obj. split; cbn [o_instr o_class o_parent o_children].
      + assumption.
      + fold r. clear - Hacc. destruct (n_type (hget r (o_instr (oget s e)))), k; try discriminate Hacc; try reflexivity. now left.
      + destruct (o_parent (oget s e)) as [p|] eqn:Ep; [|destruct k; reflexivity].
        assert (o_class (oget s e) = CSectionElement) as Ec. { specialize (G7 p eq_refl). destruct (o_class (oget s e)); try discriminate; [reflexivity|contradiction]. }
        rewrite Ec in G3. cbn in G3. destruct G3 as [A1 A2]. split; [lia|]. rewrite yield_get_old by lia. rewrite A2. destruct k; reflexivity.
      + discriminate.
      + intros []; discriminate.
      + discriminate.
      + intros p Hp. specialize (G7 p Hp). rewrite Hp in G3. destruct (o_class (oget s e)) eqn:Ec; try discriminate; [|contradiction].
        assert (exists e0 k0, e0 < length (s_objs s) /\ kind_class k0 = kind_class k /\ o_class (oget (yield_new k e s) e0) = CSectionElement /\
          o_parent (oget (yield_new k e s) e0) = Some p /\ yield_slot k0 (oget (yield_new k e s) e0) = Some (length (s_objs s))) as G.
        { exists e, k. rewrite yield_get_self by assumption. split; [assumption|]. split; [reflexivity|]. split; [exact Ec|]. split; [exact Hp|].
          rewrite slot_yield. now destruct k. }
        destruct k; exact G.
    - assert (i < length (s_objs s)) as Hlt by lia. destruct (Nat.eq_dec i e) as [->|Hne].
      + rewrite yield_get_self by assumption. pose proof (obj_mono c0 _ _ _ _ HX He (iv_obj _ _ HI e He)) as [G1 G2 G3 G4 G5 G6 G7]. split; try assumption.
        * intros l Hl. apply (kids_mono c0 (yield_new k e s) _ e (oget s e)); [split; [lia|auto]|reflexivity..|exact (G4 l Hl)].
        * intros j y. rewrite slot_yield. destruct (class_eqb (kind_class j) (kind_class k)) eqn:Ej.
          -- intros [= <-]. apply class_eqb_eq, kind_class_inj in Ej. subst j. rewrite yield_len, yield_get_new. repeat split; try assumption; try lia.
          -- rewrite Hns. discriminate.
        * intros t Ht. exists k. eexists. rewrite slot_yield. replace (class_eqb (kind_class k) (kind_class k)) with true by (now destruct k). reflexivity.
      + rewrite yield_get_old by assumption. eapply obj_mono; [exact HX|assumption|]. now apply HI.
  Qed.

  Lemma yield_is k e s : new_obj (kind_class k) (o_instr (oget s e)) (o_parent (oget s e)) s = (MkSt (s_ctx s) (s_objs s ++ [yield_obj k e s]), Ok (length (s_objs s))).
  Proof. unfold new_obj, alloc, yield_obj. destruct k; cbn; reflexivity. Qed.

  Definition yielded_other (k : kind) (x : obj) : Prop := exists j y, j <> k /\ yield_slot j x = Some y.

  Lemma slot_unique s e j k y z : Inv s -> e < length (s_objs s) -> yield_slot j (oget s e) = Some y -> yield_slot k (oget s e) = Some z -> j = k.
  Proof.
    intros HI He H1 H2. destruct (oo_slot _ _ _ _ (iv_obj _ _ HI e He) j y H1) as (_ & _ & _ & _ & _ & G1 & _).
    destruct (oo_slot _ _ _ _ (iv_obj _ _ HI e He) k z H2) as (_ & _ & _ & _ & _ & G2 & _). destruct j, k; cbn in *; congruence.
  Qed.
  Lemma yielded_section s e t : Inv s -> e < length (s_objs s) -> o_yielded (oget s e) = Some t -> yield_slot KSection (oget s e) = None ->
    accepts KSection (n_type (hget r (o_instr (oget s e)))) = false.
  Proof.
    intros HI He Hy Hs. destruct (oo_yield _ _ _ _ (iv_obj _ _ HI e He) t Hy) as (k & y & Hk).
    destruct (oo_slot _ _ _ _ (iv_obj _ _ HI e He) k y Hk) as (_ & _ & _ & _ & _ & _ & G). fold r in G.
    clear - G Hk Hs. destruct (n_type (hget r (o_instr (oget s e)))), k; try discriminate G; try reflexivity. congruence.
  Qed.

  Lemma to_kind_is k e s : Inv s -> e < length (s_objs s) -> is_elem (o_class (oget s e)) = true ->
    to_kind k e s = match yield_slot k (oget s e) with
                    | Some y => (s, Ok y)
                    | None =>
                        match k, o_yielded (oget s e) with
                        | KSection, _ | _, None =>
                            if accepts k (n_type (hget r (o_instr (oget s e)))) then (yield_new k e s, Ok (length (s_objs s)))
                            else (s, raised (v_unexpected_element_type c0 None (o_instr (oget s e)) (expected_msg k)))
                        | _, Some _ => (s, Raise TypeError)
                        end
                    end.
  Proof.
    intros HI He Hel. unfold to_kind. unfold mbind at 1, the_obj. destruct (yield_slot k (oget s e)) as [y|] eqn:Es; [reflexivity|].
    assert (forall m : sM unit, m s = (s, Ok tt) -> (m;; (let! n := inode (o_instr (oget s e)) in if accepts k (n_type n)
      then let! x := new_obj (kind_class k) (o_instr (oget s e)) (o_parent (oget s e)) in oset e (with_yield k x);; ret x
      else fail (fun c : ctx => v_unexpected_element_type c None (o_instr (oget s e)) (expected_msg k)))) s =
      if accepts k (n_type (hget r (o_instr (oget s e)))) then (yield_new k e s, Ok (length (s_objs s)))
      else (s, raised (v_unexpected_element_type c0 None (o_instr (oget s e)) (expected_msg k)))) as G.
    { intros m Hm. unfold mbind at 1. rewrite Hm. unfold mbind at 1, inode. rewrite type_is by assumption.
      destruct (accepts k (n_type (hget r (o_instr (oget s e))))).
      - unfold mbind at 1. rewrite yield_is. unfold mbind, oset, upd_obj, ret. cbn [s_ctx s_objs]. f_equal. unfold yield_new. f_equal.
        now rewrite upd_app_l.
      - apply fail_is; [assumption|]. intro c. apply strip_element_type. }
    destruct k; try (destruct (o_yielded (oget s e)); [reflexivity|]); now apply G.
  Qed.
  Lemma to_kind_ok k e s : Inv s -> e < length (s_objs s) -> is_elem (o_class (oget s e)) = true -> ok (to_kind k e) s.
  Proof.
    intros HI He Hel. unfold ok. rewrite to_kind_is by assumption. destruct (yield_slot k (oget s e)) eqn:Es; [split; [assumption|apply ext_refl]|].
    assert (forall x y, o_yielded (oget s e) = None \/ k = KSection -> (let p : st * res nat := if accepts k (n_type (hget r (o_instr (oget s e)))) then (yield_new k e s, Ok x) else (s, y) in Inv (fst p) /\ ext s (fst p))) as G.
    { intros x y Hy. cbv zeta. destruct (accepts k (n_type (hget r (o_instr (oget s e))))) eqn:Ea; [|split; [assumption|apply ext_refl]]. cbn [fst].
      apply yield_ok; try assumption. destruct Hy as [Hy | ->]; [assumption|]. destruct (o_yielded (oget s e)) as [t|] eqn:Ey; [|reflexivity].
      rewrite (yielded_section s e t HI He Ey Es) in Ea. discriminate. }
    destruct k; try (destruct (o_yielded (oget s e)) eqn:Ey; [split; [assumption|apply ext_refl]|]); apply G; auto.
  Qed.
  Lemma to_kind_valid k e s s' y : Inv s -> e < length (s_objs s) -> is_elem (o_class (oget s e)) = true -> to_kind k e s = (s', Ok y) ->
    valid s' y (kind_class k) /\ o_instr (oget s' y) = o_instr (oget s e) /\ o_parent (oget s' y) = o_parent (oget s e) /\ yield_slot k (oget s' e) = Some y.
  Proof.
    intros HI He Hel. rewrite to_kind_is by assumption. destruct (yield_slot k (oget s e)) as [z|] eqn:Es.
    - intros [= <- <-]. destruct (oo_slot _ _ _ _ (iv_obj _ _ HI e He) k z Es) as (_ & A1 & A2 & A3 & A4 & _). unfold valid. rewrite Es. repeat split; try assumption; lia.
    - assert (forall q, (if accepts k (n_type (hget r (o_instr (oget s e)))) then (yield_new k e s, Ok (length (s_objs s))) else (s, raised q)) = (s', Ok y) ->
        valid s' y (kind_class k) /\ o_instr (oget s' y) = o_instr (oget s e) /\ o_parent (oget s' y) = o_parent (oget s e) /\ yield_slot k (oget s' e) = Some y) as G.
      { intros q. destruct (accepts k (n_type (hget r (o_instr (oget s e))))).
        - intros [= <- <-]. unfold valid. rewrite yield_len, yield_get_new, yield_get_self, slot_yield by assumption. repeat split; [lia|]. now destruct k.
        - unfold raised. destruct q; intros [=]. }
      destruct k; try (destruct (o_yielded (oget s e)); [discriminate|]); intro Hq; exact (G _ Hq).
  Qed.

  (** ** Queries by key *)
  Notation children_spec := (children_spec c0).
  Lemma section_spec : children_spec section_children CSection. Proof. now apply section_kids. Qed.
  Lemma fieldset_spec : children_spec fieldset_children CFieldset. Proof. now apply fieldset_kids. Qed.
  Lemma list_spec : children_spec list_children CList. Proof. now apply list_kids. Qed.

  Lemma ok_children children cl o s : children_spec children cl -> Inv s -> valid s o cl -> ok (children o) s.
  Proof. intros H HI HV. destruct (H o s HI HV) as (s' & v & ids & E & HI' & HX & _). unfold ok. rewrite E. split; assumption. Qed.

  (** every child of a section or fieldset has a key *)
  Lemma kid_key s o ids y : Inv s -> o < length (s_objs s) -> o_class (oget s o) = CSection \/ o_class (oget s o) = CFieldset ->
    o_children (oget s o) = Some ids -> In y ids -> n_key (hget r (o_instr (oget s y))) <> None.
  Proof.
    intros HI Ho Hcl Hk Hy. pose proof (ki_each _ _ _ _ _ (oo_kids _ _ _ _ (iv_obj _ _ HI o Ho) ids Hk)) as H. rewrite Forall_forall in H.
    destruct (H y Hy) as (A1 & A2 & _). pose proof (iv_obj _ _ HI y (proj2 A1)) as [G1 G2 _ _ _ _ _]. fold r in G1, G2. rewrite A2 in G2.
    assert (n_type (hget r (o_instr (oget s y))) <> DOCUMENT /\ n_type (hget r (o_instr (oget s y))) <> LIST_ITEM) as [T1 T2].
    { destruct Hcl as [Hcl|Hcl]; rewrite Hcl in G2; cbn in G2; [tauto|]. rewrite G2. split; discriminate. }
    apply (doc_key r HD); [|assumption]. split; [|assumption].
    destruct (Nat.eq_dec (o_instr (oget s y)) 0) as [E0|]; [|lia]. destruct (doc_root r HD) as (_ & Er & _). rewrite E0 in T1. contradiction.
  Qed.
  Lemma by_key_is children cl o key s : children_spec children cl -> (cl = CSection \/ cl = CFieldset) -> Inv s -> valid s o cl ->
    exists s' v ids, by_key children o key s = (s', v) /\ Inv s' /\ ext s s' /\ made (child_class cl) o s s' ids /\
      (v = Ok (filter (fun y => keyed r key (o_instr (oget s' y))) ids) \/ v = Raise Fuel /\ ~ ends r (o_instr (oget s o)) /\ o_children (oget s o) = None).
  Proof.
    intros Hch Hcl HI HV. destruct (Hch o s HI HV) as (s' & v & ids & E & HI' & HX & Hm & Hgot). destruct Hgot as [-> | (-> & Hn & Hn2)].
    2:{ exists s', (Raise Fuel), ids. split; [|split; [assumption|split; [assumption|split; [assumption|right; auto]]]]. unfold by_key. destruct key as [[|ch k]|]; try exact E. unfold mbind at 1. now rewrite E. }
    exists s', (Ok (filter (fun y => keyed r key (o_instr (oget s' y))) ids)), ids. split; [|split; [assumption|split; [assumption|split; [assumption|now left]]]].
    pose proof (valid_ext _ _ _ _ HX HV) as [Ho' Hc']. pose proof (oo_kids _ _ _ _ (iv_obj _ _ HI' o Ho') ids (made_kids _ _ _ _ _ Hm)) as HK.
    assert (Hall : forall k, (match k with Some (_ :: _) => False | _ => True end) -> filter (fun y => keyed r k (o_instr (oget s' y))) ids = ids).
    { intros k Hk. induction ids as [|y l IH] in |- *; [reflexivity|]. cbn. destruct k as [[|c k]|]; cbn in *; try contradiction; now f_equal. }
    unfold by_key. destruct key as [[|ch k]|]; try (rewrite E; now rewrite Hall).
    unfold mbind at 1. rewrite E. unfold mbind, the_obj, ret. f_equal. f_equal.
    assert (o_class (oget s' o) <> CList) as Hnl by (rewrite Hc'; destruct Hcl as [-> | ->]; discriminate).
    pose proof (ki_map _ _ _ _ _ HK Hnl) as [_ Hg]. fold r in Hg. rewrite Hg. unfold under, pairs.
    assert (forall l, (forall y, In y l -> n_key (hget r (o_instr (oget s' y))) <> None) ->
      map snd (filter (fun p => text_eqb (ch :: k) (ApiInv.key r (fst p))) (map (fun y => (o_instr (oget s' y), y)) l)) =
      filter (fun y => keyed r (Some (ch :: k)) (o_instr (oget s' y))) l) as Hf.
    { induction l as [|y l IH]; intro Hl; [reflexivity|]. cbn [map filter fst]. unfold keyed at 1, ApiInv.key at 1, key_of.
      specialize (IH (fun z Hz => Hl z (or_intror Hz))). pose proof (Hl y (or_introl eq_refl)) as Hy.
      destruct (n_key (hget r (o_instr (oget s' y)))) as [ky|]; [|contradiction]. destruct (text_eqb (ch :: k) ky); cbn [map snd]; now rewrite IH. }
    rewrite Hf; [destruct (filter _ ids); reflexivity|]. intros y Hy. apply (kid_key s' o ids y HI' Ho'); [rewrite Hc'; tauto|apply (made_kids _ _ _ _ _ Hm)|assumption].
  Qed.
End Ops.
