(** ApiState: invariant of the object store of a session with a parsed document. *)
From Verif Require Import Base Types Messages Resolver Reporter Errors Context Elements SpecTree SpecRead SpecApi Reads ApiDoc ApiInv.

Section State.
  Context (c0 : ctx) (HD : Doc (c_heap c0)).
  Let r := c_heap c0.
  Let inp := c_input c0.

  (** ** Invariant *)

  Definition class_fits (cl : class) (t : itype) : Prop :=
    match cl with
    | CSection => t = SECTION \/ t = DOCUMENT
    | CSectionElement => t <> DOCUMENT /\ t <> LIST_ITEM /\ t <> FIELDSET_ENTRY
    | CElement => True
    | CFieldset => accepts KFieldset t = true
    | CList => accepts KList t = true
    | CField => accepts KField t = true
    | CEmpty => accepts KEmpty t = true
    | CEntry => t = FIELDSET_ENTRY
    | CItem => t = LIST_ITEM
    end.
  Definition parent_class (cl : class) : class := match cl with CEntry => CFieldset | CItem => CList | _ => CSection end.
  Definition orphan (cl : class) : bool := match cl with CEntry | CItem | CSectionElement => false | _ => true end.
  Definition child_class (cl : class) : class := match cl with CFieldset => CEntry | CList => CItem | _ => CSectionElement end.
  Definition kid_list (cl : class) (e : nat) (l : list nat) : Prop :=
    match cl with CSection => element_list r e l | CFieldset => entry_list r e l | CList => item_list r e l | _ => False end.
  Definition pairs (s : st) (ids : list nat) : list (nat * nat) := map (fun y => (o_instr (oget s y), y)) ids.
  Definition is_elem (cl : class) : bool := match cl with CSectionElement | CElement => true | _ => false end.

  Record KidsOk (s : st) (o : nat) (x : obj) (l : list nat) : Prop := {
    ki_each : Forall (fun y => o < y < length (s_objs s) /\ o_class (oget s y) = child_class (o_class x) /\ o_parent (oget s y) = Some o) l;
    ki_list : ends r (o_instr x) -> kid_list (o_class x) (o_instr x) (map (fun y => o_instr (oget s y)) l);
    ki_map : o_class x <> CList -> groups r (o_map x) (pairs s l)
  }.
  Record ObjOk (s : st) (o : nat) (x : obj) : Prop := {
    oo_instr : o_instr x < length r;
    oo_class : class_fits (o_class x) (n_type (hget r (o_instr x)));
    oo_parent : match o_parent x with
                | Some p => p < o /\ o_class (oget s p) = parent_class (o_class x)
                | None => orphan (o_class x) = true
                end;
    oo_kids : forall l, o_children x = Some l -> KidsOk s o x l;
    oo_slot : forall k y, yield_slot k x = Some y -> is_elem (o_class x) = true /\ o < y < length (s_objs s) /\
                o_class (oget s y) = kind_class k /\ o_instr (oget s y) = o_instr x /\ o_parent (oget s y) = o_parent x /\
                o_yielded x = Some (kind_type k) /\ accepts k (n_type (hget r (o_instr x))) = true;
    oo_yield : forall t, o_yielded x = Some t -> exists k y, yield_slot k x = Some y;
    (** the object is referred to by its parent, or by the element it was yielded from *)
    oo_home : forall p, o_parent x = Some p -> match o_class x with
                | CSectionElement | CEntry | CItem => exists l, o_children (oget s p) = Some l /\ In o l
                | CElement => False
                | cl => exists e k, e < o /\ kind_class k = cl /\ o_class (oget s e) = CSectionElement /\
                          o_parent (oget s e) = Some p /\ yield_slot k (oget s e) = Some o
                end
  }.
  Record Inv (s : st) : Prop := {
    iv_ctx : CtxOk r c0 (s_ctx s);
    iv_obj : forall o, o < length (s_objs s) -> ObjOk s o (oget s o)
  }.

  (** ** The future of a state *)

  Record obj_ext (x y : obj) : Prop := {
    xe_class : o_class y = o_class x;
    xe_instr : o_instr y = o_instr x;
    xe_parent : o_parent y = o_parent x;
    xe_touched : o_touched x = true -> o_touched y = true;
    xe_kids : forall l, o_children x = Some l -> o_children y = Some l /\ o_map y = o_map x;
    xe_slot : forall k z, yield_slot k x = Some z -> yield_slot k y = Some z;
    xe_yield : forall t, o_yielded x = Some t -> o_yielded y = Some t
  }.
  Record ext (s s' : st) : Prop := {
    ex_len : length (s_objs s) <= length (s_objs s');
    ex_obj : forall o, o < length (s_objs s) -> obj_ext (oget s o) (oget s' o)
  }.
  Lemma obj_ext_refl x : obj_ext x x. Proof. split; auto. Qed.
  Lemma obj_ext_trans x y z : obj_ext x y -> obj_ext y z -> obj_ext x z.
  Proof.
    intros [A1 A2 A3 A4 A5 A6 A7] [B1 B2 B3 B4 B5 B6 B7]. split; try congruence; auto.
    intros l Hl. destruct (A5 l Hl) as [C1 C2]. destruct (B5 l C1) as [D1 D2]. split; congruence.
  Qed.
  Lemma ext_refl s : ext s s. Proof. split; [lia|]. intros. apply obj_ext_refl. Qed.
  Lemma ext_trans a b c : ext a b -> ext b c -> ext a c.
  Proof. intros [L1 H1] [L2 H2]. split; [lia|]. intros o Ho. eapply obj_ext_trans; [now apply H1|apply H2; lia]. Qed.

  Definition valid (s : st) (o : nat) (cl : class) : Prop := o < length (s_objs s) /\ o_class (oget s o) = cl.
  Lemma valid_ext s s' o cl : ext s s' -> valid s o cl -> valid s' o cl.
  Proof. intros [L H] [V1 V2]. split; [lia|]. rewrite (xe_class _ _ (H o V1)). assumption. Qed.

  (** only the class, instruction and parent of other objects matter *)
  Definition skel (s s' : st) : Prop := length (s_objs s) <= length (s_objs s') /\ forall o, o < length (s_objs s) ->
    o_class (oget s' o) = o_class (oget s o) /\ o_instr (oget s' o) = o_instr (oget s o) /\ o_parent (oget s' o) = o_parent (oget s o).
  Lemma ext_skel s s' : ext s s' -> skel s s'.
  Proof. intros [L H]. split; [assumption|]. intros o Ho. destruct (H o Ho). auto. Qed.
  Lemma pairs_skel s s' l : skel s s' -> (forall y, In y l -> y < length (s_objs s)) -> pairs s' l = pairs s l.
  Proof. intros [L H] Hl. apply map_ext_in. intros y Hy. destruct (H y (Hl y Hy)) as (_ & -> & _). reflexivity. Qed.
  Lemma kids_lt s o x l : KidsOk s o x l -> forall y, In y l -> y < length (s_objs s).
  Proof. intros [H _ _] y Hy. rewrite Forall_forall in H. destruct (H y Hy). lia. Qed.
  Lemma kids_mono s s' o x x' l : skel s s' -> o_class x' = o_class x -> o_instr x' = o_instr x -> o_map x' = o_map x -> KidsOk s o x l -> KidsOk s' o x' l.
  Proof.
    intros HS E1 E2 E3 HK. pose proof (kids_lt _ _ _ _ HK) as Hlt. destruct HK as [H1 H2 H3]. rewrite Forall_forall in H1. split.
    - apply Forall_forall. intros y Hy. destruct (H1 y Hy) as (A1 & A2 & A3). destruct HS as [L HS]. destruct (HS y) as (B1 & B2 & B3); [lia|].
      split; [lia|]. split; congruence.
    - rewrite E1, E2. replace (map (fun y => o_instr (oget s' y)) l) with (map (fun y => o_instr (oget s y)) l); [assumption|].
      apply map_ext_in. intros y Hy. destruct HS as [L HS]. now destruct (HS y (Hlt y Hy)) as (_ & -> & _).
    - rewrite E1, E3. intro Hc. rewrite (pairs_skel s s' l HS Hlt). auto.
  Qed.
  Lemma obj_mono s s' o x : ext s s' -> o < length (s_objs s) -> ObjOk s o x -> ObjOk s' o x.
  Proof.
    intros HX Ho [H1 H2 H3 H4 H5 H6 H7]. pose proof (ext_skel _ _ HX) as HS. split; try assumption.
    - destruct (o_parent x) as [p|]; [|assumption]. destruct H3 as [A1 A2]. split; [assumption|]. destruct HS as [L HS]. destruct (HS p) as (-> & _); [lia|assumption].
    - intros l Hl. eapply kids_mono; [exact HS|reflexivity..|]. now apply H4.
    - intros k y Hy. destruct (H5 k y Hy) as (A1 & A2 & A3 & A4 & A5 & A6). destruct HS as [L HS]. destruct (HS y) as (B1 & B2 & B3); [lia|].
      repeat split; try apply A6; try assumption; try congruence; lia.
    - intros p Hp. specialize (H7 p Hp). rewrite Hp in H3. destruct H3 as [Hpo _]. destruct (o_class x); try exact H7.
      1,3-6: destruct H7 as (e & k & G1 & G2 & G3 & G4 & G5); exists e, k; destruct (ex_obj _ _ HX e) as [X1 X2 X3 X4 X5 X6 X7]; [lia|];
        repeat split; try assumption; try congruence; now apply X6.
      all: destruct H7 as (l & G1 & G2); exists l; destruct (ex_obj _ _ HX p) as [X1 X2 X3 X4 X5 X6 X7]; [lia|]; split; [now apply X5|assumption].
  Qed.

  Definition ok {A} (m : sM A) (s : st) : Prop := Inv (fst (m s)) /\ ext s (fst (m s)).
  Lemma ok_bind {A B} (x : sM A) (f : A -> sM B) s : ok x s ->
    (forall a s1, x s = (s1, Ok a) -> Inv s1 -> ext s s1 -> ok (f a) s1) -> ok (mbind x f) s.
  Proof.
    intros [H1 H2] H. unfold ok, mbind. destruct (x s) as [s1 [a|e]] eqn:E; cbn in *; [|auto].
    destruct (H a s1 eq_refl H1 H2) as [G1 G2]. split; [assumption|eapply ext_trans; eassumption].
  Qed.
  Lemma ok_still {A} (m : sM A) s : Inv s -> (forall s, fst (m s) = s) -> ok m s.
  Proof. intros HI H. unfold ok. rewrite H. split; [assumption|apply ext_refl]. Qed.
  Lemma still_fail {A} f s : fst (@fail A f s) = s.
  Proof. unfold fail, mbind, the_ctx. destruct (f (s_ctx s)); reflexivity. Qed.
  Lemma ok_fail {A} f s : Inv s -> ok (@fail A f) s.
  Proof. intro H. apply ok_still; [assumption|apply still_fail]. Qed.
  Lemma ok_ret {A} (a : A) s : Inv s -> ok (ret a) s.
  Proof. intro H. now apply ok_still. Qed.
  Lemma ok_raise {A} e s : Inv s -> ok (@raise st A e) s.
  Proof. intro H. now apply ok_still. Qed.
  Lemma ok_lift {A} x s : Inv s -> ok (@lift st A x) s.
  Proof. intro H. now apply ok_still. Qed.

  Lemma ok_mapM {A B} (f : A -> sM B) l : forall s, Inv s -> (forall a s1, In a l -> ext s s1 -> Inv s1 -> ok (f a) s1) -> ok (mapM f l) s.
  Proof.
    induction l as [|a l IH]; intros s HI H; cbn [mapM]; [now apply ok_ret|].
    apply ok_bind; [apply H; [now left|apply ext_refl|assumption]|]. intros b s1 _ H1 E1. apply ok_bind.
    - apply IH; [assumption|]. intros a' s2 Ha E2 H2. apply H; [now right|eapply ext_trans; eassumption|assumption].
    - intros bs s2 _ H2 _. now apply ok_ret.
  Qed.
  Lemma ok_iterM {A} (f : A -> sM unit) l : forall s, Inv s -> (forall a s1, In a l -> ext s s1 -> Inv s1 -> ok (f a) s1) -> ok (iterM f l) s.
  Proof.
    induction l as [|a l IH]; intros s HI H; cbn [iterM]; [now apply ok_ret|].
    apply ok_bind; [apply H; [now left|apply ext_refl|assumption]|]. intros b s1 _ H1 E1.
    apply IH; [assumption|]. intros a' s2 Ha E2 H2. apply H; [now right|eapply ext_trans; eassumption|assumption].
  Qed.
  Lemma ok_first {A} (f : A -> sM (option nat)) l : forall s, Inv s -> (forall a s1, In a l -> ext s s1 -> Inv s1 -> ok (f a) s1) -> ok (first_some f l) s.
  Proof.
    induction l as [|a l IH]; intros s HI H; cbn [first_some]; [now apply ok_ret|].
    apply ok_bind; [apply H; [now left|apply ext_refl|assumption]|]. intros [i|] s1 _ H1 E1; [now apply ok_ret|].
    apply IH; [assumption|]. intros a' s2 Ha E2 H2. apply H; [now right|eapply ext_trans; eassumption|assumption].
  Qed.

  (** ** Single updates *)

  Lemma oget_upd_obj o f s i : oget (upd_obj o f s) i = if (Nat.eqb o i && Nat.ltb o (length (s_objs s)))%bool then f (oget s o) else oget s i.
  Proof.
    unfold oget, upd_obj. cbn [s_objs]. destruct (Nat.ltb_spec o (length (s_objs s))) as [H|H].
    - destruct (Nat.eqb_spec o i) as [<-|Hne]; cbn [andb]; [now rewrite nth_upd_eq|now rewrite nth_upd_neq].
    - rewrite andb_false_r. now rewrite upd_ge.
  Qed.
  Lemma inv_upd o f s : Inv s -> o < length (s_objs s) -> obj_ext (oget s o) (f (oget s o)) ->
    (ext s (upd_obj o f s) -> ObjOk (upd_obj o f s) o (f (oget s o))) -> Inv (upd_obj o f s) /\ ext s (upd_obj o f s).
  Proof.
    intros HI Ho Hx Hok.
    assert (HE' : ext s (upd_obj o f s)).
    { split; [unfold upd_obj; cbn; rewrite upd_length; lia|]. intros i Hi. rewrite oget_upd_obj. destruct (Nat.eqb_spec o i) as [<-|]; cbn [andb]; [|apply obj_ext_refl].
      destruct (Nat.ltb_spec o (length (s_objs s))); [assumption|lia]. }
    split; [|assumption]. split; [apply HI|].
    intros i Hi. rewrite oget_upd_obj. assert (Hi' : i < length (s_objs s)) by (unfold upd_obj in Hi; cbn in Hi; now rewrite upd_length in Hi).
    destruct (Nat.eqb_spec o i) as [<-|]; cbn [andb].
    - destruct (Nat.ltb_spec o (length (s_objs s))); [auto|lia].
    - eapply obj_mono; [exact HE'|assumption|]. now apply HI.
  Qed.
  Lemma ok_flag o f s : Inv s -> (forall x, o_class (f x) = o_class x /\ o_instr (f x) = o_instr x /\ o_parent (f x) = o_parent x /\
      (o_touched x = true -> o_touched (f x) = true) /\ o_children (f x) = o_children x /\ o_map (f x) = o_map x /\
      (forall k, yield_slot k (f x) = yield_slot k x) /\ o_yielded (f x) = o_yielded x) -> ok (oset o f) s.
  Proof.
    intros HI Hf. unfold ok, oset. cbn [fst]. destruct (Nat.lt_ge_cases o (length (s_objs s))) as [Ho|Ho].
    2:{ unfold upd_obj. rewrite upd_ge by assumption. destruct s. cbn in *. split; [assumption|apply ext_refl]. }
    destruct (Hf (oget s o)) as (F1 & F2 & F3 & F4 & F5 & F6 & F7 & F8). apply inv_upd; [assumption..| |].
    - split; try assumption.
      + intros l Hl. rewrite F5, F6. auto.
      + intros k z Hz. now rewrite F7.
      + intros t Ht. now rewrite F8.
    - intro HX. pose proof (obj_mono _ _ _ _ HX Ho (iv_obj _ HI o Ho)) as [G1 G2 G3 G4 G5 G6 G7]. split.
      + now rewrite F2.
      + now rewrite F1, F2.
      + now rewrite F3, F1.
      + intros l Hl. rewrite F5 in Hl. specialize (G4 l Hl). eapply kids_mono; [|exact F1|exact F2|exact F6|exact G4]. split; [lia|auto].
      + intros k y Hy. rewrite F7 in Hy. rewrite F1, F2, F3, F8. now apply G5.
      + intros t Ht. rewrite F8 in Ht. destruct (G6 t Ht) as (k & y & Hy). exists k, y. now rewrite F7.
      + intros p Hp. rewrite F3 in Hp. rewrite F1. now apply G7.
  Qed.
  Lemma ok_touch o s : Inv s -> ok (touch_obj o) s.
  Proof. intro HI. apply ok_flag; [assumption|]. intro x. destruct x. repeat split; cbn; auto. Qed.
  Lemma ok_req o b s : Inv s -> ok (oset o (with_req b)) s.
  Proof. intro HI. apply ok_flag; [assumption|]. intro x. destruct x. repeat split; cbn; auto. Qed.

  (** ** Reading from the context *)
  Lemma ok_heap {A} (m : hM A) s : Inv s -> keeping inp r m -> ok (on_heap m) s.
  Proof.
    intros HI Hm. unfold ok, on_heap. pose proof (iv_ctx _ HI) as [C1 C2]. destruct (m (c_heap (s_ctx s))) as [h' v] eqn:E. cbn [fst].
    pose proof (Hm _ _ _ C2 E) as C3. split.
    - split; [split; cbn; [|exact C3]|].
      + rewrite C1. reflexivity.
      + intros o Ho. apply (obj_mono s); [split; [cbn; lia|intros; apply obj_ext_refl]|exact Ho|]. now apply HI.
    - split; [cbn; lia|]. intros o Ho. apply obj_ext_refl.
  Qed.

  (** ** Children *)

  Record made (cl : class) (o : nat) (s s' : st) (ids : list nat) : Prop := {
    md_ctx : s_ctx s' = s_ctx s;
    md_len : length (s_objs s) <= length (s_objs s');
    md_self : exists m, oget s' o = with_children ids m (oget s o);
    md_rest : forall i, i <> o -> i < length (s_objs s) -> oget s' i = oget s i;
    md_new : forall i, length (s_objs s) <= i < length (s_objs s') -> exists e, oget s' i = fresh_obj cl o e
  }.

  Lemma map_combine {A} (f : A -> nat) (l : list A) : map (fun y => (f y, y)) l = combine (map f l) l.
  Proof. induction l as [|y l IH]; [reflexivity|]. cbn. now rewrite IH. Qed.
  Lemma obj_ext_children x l m : o_children x = None -> obj_ext x (with_children l m x).
  Proof. intro H. split; cbn; auto; try congruence. Qed.

  Lemma grown_ok cl o s s' ids es m : Inv s -> o < length (s_objs s) -> o_children (oget s o) = None ->
    cl = child_class (o_class (oget s o)) -> cl = CEntry \/ cl = CItem \/ cl = CSectionElement -> parent_class cl = o_class (oget s o) ->
    grown cl o s s' [] ids es m -> (o_class (oget s o) <> CList -> groups r m (combine es ids)) -> (ends r (o_instr (oget s o)) -> kid_list (o_class (oget s o)) (o_instr (oget s o)) es) ->
    (forall x, In x es -> x < length r /\ class_fits cl (n_type (hget r x))) ->
    Inv s' /\ ext s s' /\ made cl o s s' ids.
  Proof.
    intros HI Ho Hch Hcl Hcl2 Hpc (news & -> & R1 & R2 & R3 & R4) Hg Hk Hes. cbn [app].
    set (n := length (s_objs s)) in *. set (s' := MkSt _ _).
    assert (Hlen : length (s_objs s') = n + length news) by (subst s'; cbn; now rewrite app_length, upd_length, map_length).
    assert (Gself : oget s' o = with_children ids m (oget s o)).
    { subst s'. unfold oget. cbn [s_objs]. rewrite app_nth1 by (now rewrite upd_length). now rewrite nth_upd_eq. }
    assert (Grest : forall i, i <> o -> i < n -> oget s' i = oget s i).
    { intros i Hi Hlt. subst s'. unfold oget. cbn [s_objs]. rewrite app_nth1 by (now rewrite upd_length). apply nth_upd_neq. congruence. }
    assert (Gnew : forall i, n <= i < n + length news -> oget s' i = fresh_obj cl o (nth (i - n) news 0) /\ In (nth (i - n) news 0) es).
    { intros i Hi. split; [|apply R3, nth_In; lia]. subst s'. unfold oget. cbn [s_objs]. rewrite app_nth2 by (rewrite upd_length; fold n; lia). rewrite upd_length. fold n.
      rewrite (nth_indep _ no_obj (fresh_obj cl o 0)) by (rewrite map_length; lia). now rewrite map_nth. }
    assert (HX : ext s s').
    { split; [fold n; lia|]. intros i Hi. destruct (Nat.eq_dec i o) as [->|Hne].
      - rewrite Gself. now apply obj_ext_children.
      - rewrite Grest by assumption. apply obj_ext_refl. }
    split; [|split; [assumption|]].
    2:{ split; [reflexivity|fold n; lia|eauto|assumption|]. intros i Hi. fold n in Hi. rewrite Hlen in Hi. destruct (Gnew i Hi) as [E _]. eauto. }
    split; [apply HI|]. intros i Hi. rewrite Hlen in Hi. destruct (Nat.lt_ge_cases i n) as [Hin|Hin].
    - destruct (Nat.eq_dec i o) as [->|Hne].
      + rewrite Gself. pose proof (obj_mono _ _ _ _ HX Ho (iv_obj _ HI o Ho)) as [G1 G2 G3 G4 G5 G6 G7]. split; try assumption.
        intros l Hl. cbn in Hl. injection Hl as <-.
        assert (Eids : map (fun y => o_instr (oget s' y)) ids = es).
        { rewrite <- R2. apply map_ext_in. intros y Hy. rewrite Forall_forall in R1. specialize (R1 y Hy). destruct (Gnew y R1) as [-> _]. reflexivity. }
        assert (Hl' : length es = length ids) by (rewrite <- Eids; apply map_length).
        split.
        * apply Forall_forall. intros y Hy. rewrite Forall_forall in R1. specialize (R1 y Hy). fold n in R1. destruct (Gnew y R1) as [-> _]. cbn. split; [rewrite app_length, upd_length, map_length; fold n; lia|]. split; [assumption|reflexivity].
        * cbn [o_class o_instr with_children]. rewrite Eids. exact Hk.
        * cbn [o_class with_children o_map]. intro Hne. assert (pairs s' ids = combine es ids) as ->; [|now apply Hg].
          unfold pairs. rewrite <- Eids. apply map_combine.
      + rewrite Grest by assumption. eapply obj_mono; [exact HX|assumption|]. now apply HI.
    - destruct (Gnew i) as [-> Hin2]; [lia|]. destruct (Hes _ Hin2) as [E1 E2]. unfold fresh_obj. split; cbn [o_instr o_class o_parent o_children].
      + assumption.
      + assumption.
      + split; [lia|]. rewrite Gself. cbn. congruence.
      + discriminate.
      + intros []; discriminate.
      + discriminate.
      + intros p [= <-]. rewrite Gself. assert (exists l, o_children (with_children ids m (oget s o)) = Some l /\ In i l) as G by (exists ids; split; [reflexivity|apply R4; fold n; lia]).
        destruct Hcl2 as [-> | [-> | ->]]; exact G.
  Qed.

  Lemma made_id cl o s l : o_children (oget s o) = Some l -> made cl o s s l.
  Proof.
    intro H. split; auto; try lia. exists (o_map (oget s o)). unfold with_children. rewrite <- H. now destruct (oget s o).
  Qed.
  Lemma made_kids cl o s s' ids : made cl o s s' ids -> o_children (oget s' o) = Some ids.
  Proof. intros [_ _ (m & ->) _ _]. reflexivity. Qed.
  Lemma with_children_twice l m l' m' x : with_children l m (with_children l' m' x) = with_children l m x.
  Proof. reflexivity. Qed.

  Lemma path_fuel e s : Inv s -> ends r e -> exists p, path r e p /\ length p <= S (length (c_heap (s_ctx s))).
  Proof.
    intros HI He. destruct (ends_path r e He) as (p & Hp). exists p. split; [assumption|].
    pose proof (path_length r e p Hp). destruct (iv_ctx _ HI) as [_ C]. rewrite (ca_len _ _ _ _ C). assumption.
  Qed.
  Lemma grown_twice cl o s s' ids es m : grown cl o (upd_obj o (with_children [] []) s) s' [] ids es m -> grown cl o s s' [] ids es m.
  Proof.
    intros (news & E & R). exists news. unfold upd_obj in *. cbn [s_ctx s_objs] in *. rewrite upd_length in R. split; [|exact R].
    rewrite E. f_equal. f_equal. rewrite upd_compose. now apply upd_ext.
  Qed.

  Lemma ends_or n : forall e, ends r e \/ (forall p, path r e p -> n < length p).
  Proof.
    induction n as [|n IH]; intro e.
    - right. intros p Hp. destruct Hp; cbn; lia.
    - destruct (n_mirror (hget r e)) as [m|] eqn:Em.
      + destruct (IH m) as [H|H]; [left; now apply (en_mirror r e m)|]. right. intros p Hp. inversion Hp as [? A B|? m' p' Hf Hp']; subst; [congruence|].
        destruct Hf as [Hf|[Hf _]]; [|congruence]. assert (m' = m) as -> by congruence. specialize (H p' Hp'). cbn. lia.
      + destruct (n_extend (hget r e)) as [t|] eqn:Et; [|left; now apply en_plain].
        destruct (IH t) as [H|H]; [left; now apply (en_extend r e t)|]. right. intros p Hp. inversion Hp as [? A B|? m' p' Hf Hp']; subst; [congruence|].
        destruct Hf as [Hf|[_ Hf]]; [congruence|]. assert (m' = t) as -> by congruence. specialize (H p' Hp'). cbn. lia.
  Qed.
  Lemma ends_dec e : ends r e \/ ~ ends r e.
  Proof.
    destruct (ends_or (S (length r)) e) as [H|H]; [now left|]. right. intro He. destruct (ends_path r e He) as (p & Hp).
    pose proof (path_length r e p Hp). specialize (H p Hp). lia.
  Qed.

  (** the children of an object; a chain of links without end can not be followed (RecursionError)
      but leaves the children found so far *)
  Definition got (o : nat) (s : st) (v : res (list nat)) (ids : list nat) : Prop :=
    v = Ok ids \/ v = Raise Fuel /\ ~ ends r (o_instr (oget s o)) /\ o_children (oget s o) = None.
  Definition children_spec (children : nat -> sM (list nat)) (cl : class) : Prop := forall o s, Inv s -> valid s o cl ->
    exists s' v ids, children o s = (s', v) /\ Inv s' /\ ext s s' /\ made (child_class cl) o s s' ids /\ got o s v ids.

  Lemma section_elem x e : In x (own_elements r e) -> x < length r /\ class_fits CSectionElement (n_type (hget r x)).
  Proof.
    intro H. destruct (doc_elements r HD e x H) as (D1 & D2 & D3).
    split; [assumption|]. cbn. unfold is_element, is_section in D2. destruct (n_type (hget r x)); destruct D2 as [D2|D2]; try contradiction; try discriminate; repeat split; discriminate.
  Qed.
  Lemma section_kids : children_spec section_children CSection.
  Proof.
    intros o s HI [Ho Hc]. unfold section_children, mbind at 1, the_obj. destruct (o_children (oget s o)) as [l|] eqn:Ech.
    { exists s, (Ok l), l. split; [reflexivity|]. split; [assumption|]. split; [apply ext_refl|]. split; [now apply made_id|now left]. }
    unfold mbind at 1, oset. unfold mbind at 1, hfuel. set (s1 := upd_obj o _ s).
    assert (Ho1 : o < length (s_objs s1)) by (subst s1; unfold upd_obj; cbn; now rewrite upd_length).
    assert (E1 : oget s1 o = with_children [] [] (oget s o)) by (subst s1; unfold oget, upd_obj; cbn [s_objs]; now rewrite nth_upd_eq).
    destruct (ends_dec (o_instr (oget s o))) as [He|He].
    - destruct (path_fuel (o_instr (oget s o)) s HI He) as (p & Hp & Hlen). destruct (element_list_total r HD _ He) as (L & HL).
      destruct (inst_section r HD c0 (o_instr (oget s o)) p L (S (length (c_heap (s_ctx s1)))) s1 o [] [] Hp HL Hlen (iv_ctx _ HI) Ho1) as (m & s' & ids & E & Hg & Hgr).
      { now rewrite E1. } { rewrite E1. apply groups_nil. }
      rewrite new_nil in Hg, Hgr. cbn [app] in Hg. apply grown_twice in Hgr.
      destruct (grown_ok CSectionElement o s s' ids L m) as (HI' & HX & Hm); try assumption.
      { now rewrite Hc. } { tauto. } { now rewrite Hc. } { intros _. exact Hg. } { rewrite Hc. intros _. exact HL. }
      { intros x Hx. destruct (element_list_from r _ L HL x Hx) as (e' & He'). now apply (section_elem x e'). }
      exists s', (Ok ids), ids. split; [|split; [assumption|split; [assumption|split; [assumption|now left]]]].
      unfold mbind. rewrite E. unfold ret. pose proof (made_kids _ _ _ _ _ Hm) as ->. reflexivity.
    - destruct (inst_any r HD c0 (S (length (c_heap (s_ctx s1)))) (o_instr (oget s o)) s1 o [] []) as (m & news & v & Hg & E & Hfrom & Hv); [apply HI|assumption|now rewrite E1|rewrite E1; apply groups_nil|].
      cbn [app] in E, Hg. set (ids := seq (length (s_objs s1)) (length news)) in *.
      assert (Hgr : grown CSectionElement o s1 (MkSt (s_ctx s1) (upd (s_objs s1) o (with_children ids m) ++ map (fresh_obj CSectionElement o) news)) [] ids news m).
      { exists news. split; [reflexivity|]. split; [apply seq_range|]. split; [apply map_seq_nth|split; [auto|intros id Hid; now apply in_seq]]. }
      apply grown_twice in Hgr. set (s' := MkSt _ _) in *.
      destruct (grown_ok CSectionElement o s s' ids news m) as (HI' & HX & Hm); try assumption.
      { now rewrite Hc. } { tauto. } { now rewrite Hc. } { intros _. exact Hg. } { intro. contradiction. }
      { intros x Hx. destruct (Hfrom x Hx) as (e' & He'). now apply (section_elem x e'). }
      unfold mbind. rewrite E. destruct Hv as [[-> Hv]|Hv]; [contradiction|]. rewrite Hv.
      exists s', (Raise Fuel), ids. split; [reflexivity|]. split; [assumption|split; [assumption|split; [assumption|right; auto]]].
  Qed.

  Lemma fieldset_kids : children_spec fieldset_children CFieldset.
  Proof.
    intros o s HI [Ho Hc]. unfold fieldset_children, mbind at 1, the_obj. destruct (o_children (oget s o)) as [l|] eqn:Ech.
    { exists s, (Ok l), l. split; [reflexivity|]. split; [assumption|]. split; [apply ext_refl|]. split; [now apply made_id|now left]. }
    unfold mbind at 1, oset. unfold mbind at 1, hfuel. set (s1 := upd_obj o _ s).
    assert (He : ends r (o_instr (oget s o))) by (apply (doc_ends r HD); pose proof (oo_class _ _ _ (iv_obj _ HI o Ho)) as Hfit; rewrite Hc in Hfit; cbn in Hfit; now intro Et; rewrite Et in Hfit).
    destruct (path_fuel (o_instr (oget s o)) s HI He) as (p & Hp & Hlen).
    assert (Ho1 : o < length (s_objs s1)) by (subst s1; unfold upd_obj; cbn; now rewrite upd_length).
    assert (E1 : oget s1 o = with_children [] [] (oget s o)) by (subst s1; unfold oget, upd_obj; cbn [s_objs]; now rewrite nth_upd_eq).
    assert (exists m s' ids L, instantiate_entries (S (length (c_heap (s_ctx s1)))) o (o_instr (oget s o)) s1 = (s', Ok tt) /\
              groups r m (combine L ids) /\ grown CEntry o s s' [] ids L m /\ entry_list r (o_instr (oget s o)) L) as (m & s' & ids & L & E & Hg & Hgr & HL).
    { pose proof (oo_class _ _ _ (iv_obj _ HI o Ho)) as Hfit. rewrite Hc in Hfit. cbn in Hfit.
      destruct (n_type (hget r (o_instr (oget s o)))) eqn:Et; try discriminate.
      - destruct (doc_empty r HD _ Et) as ([D1 D2] & D3 & D4). cbn [instantiate_entries]. unfold mbind at 1, inode.
        pose proof (co_heap _ _ _ (iv_ctx _ HI)) as C. cbn [s_ctx s1 upd_obj]. subst s1. cbn [s_ctx upd_obj].
        rewrite (ca_mirror _ _ _ _ C), (ca_ents _ _ _ _ C), D1, D4. exists [], (upd_obj o (with_children [] []) s), [], []. split; [reflexivity|]. split; [apply groups_nil|]. split.
        + exists []. unfold upd_obj. cbn. rewrite app_nil_r. split; [reflexivity|]. split; [constructor|]. split; [reflexivity|split; [intros x []|intros id Hid; cbn in Hid; lia]].
        + replace (@nil nat) with (own_entries r (o_instr (oget s o))) by (unfold own_entries; now rewrite D4). apply le_own. split; assumption.
      - destruct (entry_list_total r HD _ He) as (L & HL).
        destruct (inst_entries r HD c0 (o_instr (oget s o)) p Hp Et L HL (S (length (c_heap (s_ctx s1)))) s1 o [] [] Hlen (iv_ctx _ HI) Ho1) as (m & s' & ids & E & Hg & Hgr).
        { now rewrite E1. } { rewrite E1. apply groups_nil. }
        rewrite new_nil in Hg, Hgr. cbn [app] in Hg. apply grown_twice in Hgr. exists m, s', ids, L. auto. }
    destruct (grown_ok CEntry o s s' ids L m) as (HI' & HX & Hm); try assumption.
    { now rewrite Hc. } { tauto. } { now rewrite Hc. } { intros _. exact Hg. } { rewrite Hc. intros _. exact HL. }
    { intros x Hx. destruct (entry_list_from r _ L HL x Hx) as (e' & He'). destruct (doc_entries r HD e' x He') as (D1 & D2 & D3). split; assumption. }
    exists s', (Ok ids), ids. split; [|split; [assumption|split; [assumption|split; [assumption|now left]]]]. unfold mbind. rewrite E. unfold ret. pose proof (made_kids _ _ _ _ _ Hm) as ->. reflexivity.
  Qed.

  Lemma item_list_from e l : item_list r e l -> forall x, In x l -> exists e', In x (own_items r e').
  Proof.
    induction 1 as [e H|e m l H1 H2 IH|e t l H1 H2 IH]; intros x Hx; eauto. apply in_app_or in Hx as [Hx|Hx]; eauto.
  Qed.
  Lemma list_kids : children_spec list_children CList.
  Proof.
    intros o s HI [Ho Hc]. unfold list_children, mbind at 1, the_obj. destruct (o_children (oget s o)) as [l|] eqn:Ech.
    { exists s, (Ok l), l. split; [reflexivity|]. split; [assumption|]. split; [apply ext_refl|]. split; [now apply made_id|now left]. }
    unfold mbind at 1, hfuel.
    assert (He : ends r (o_instr (oget s o))) by (apply (doc_ends r HD); pose proof (oo_class _ _ _ (iv_obj _ HI o Ho)) as Hfit; rewrite Hc in Hfit; cbn in Hfit; now intro Et; rewrite Et in Hfit).
    destruct (path_fuel (o_instr (oget s o)) s HI He) as (p & Hp & Hlen).
    assert (exists L, item_list r (o_instr (oget s o)) L /\ instantiate_items (S (length (c_heap (s_ctx s)))) o (o_instr (oget s o)) s =
              (MkSt (s_ctx s) (s_objs s ++ map (fresh_obj CItem o) L), Ok (seq (length (s_objs s)) (length L)))) as (L & HL & E).
    { pose proof (oo_class _ _ _ (iv_obj _ HI o Ho)) as Hfit. rewrite Hc in Hfit. cbn in Hfit.
      destruct (n_type (hget r (o_instr (oget s o)))) eqn:Et; try discriminate.
      - destruct (doc_empty r HD _ Et) as ([D1 D2] & D3 & D4). exists []. split.
        + replace (@nil nat) with (own_items r (o_instr (oget s o))) by (unfold own_items; now rewrite D3). apply lt_own. split; assumption.
        + cbn [instantiate_items]. unfold mbind at 1, inode. pose proof (co_heap _ _ _ (iv_ctx _ HI)) as C.
          rewrite (ca_mirror _ _ _ _ C), (ca_extend _ _ _ _ C), (ca_its _ _ _ _ C), D1, D2, D3. cbn. rewrite app_nil_r. now destruct s.
      - destruct (item_list_total r _ He) as (L & HL). exists L. split; [assumption|].
        apply (inst_items r HD c0 (o_instr (oget s o)) p Hp Et L HL _ s o Hlen (iv_ctx _ HI)). }
    set (ids := seq (length (s_objs s)) (length L)) in *. set (s' := MkSt (s_ctx s) (upd (s_objs s) o (with_children ids (o_map (oget s o))) ++ map (fresh_obj CItem o) L)).
    destruct (grown_ok CItem o s s' ids L (o_map (oget s o))) as (HI' & HX & Hm); try assumption.
    { now rewrite Hc. } { tauto. } { now rewrite Hc. }
    { exists L. split; [reflexivity|]. split; [apply seq_range|]. split; [apply map_seq_nth|split; [auto|intros id Hid; now apply in_seq]]. }
    { rewrite Hc. intro C. now destruct C. } { rewrite Hc. intros _. exact HL. }
    { intros x Hx. destruct (item_list_from _ L HL x Hx) as (e' & He'). destruct (doc_items r HD e' x He') as (D1 & D2). split; assumption. }
    exists s', (Ok ids), ids. split; [|split; [assumption|split; [assumption|split; [assumption|now left]]]]. unfold mbind. rewrite E. unfold oset, upd_obj, ret. cbn [s_ctx s_objs]. f_equal. subst s'. f_equal.
    rewrite upd_app_l by assumption. f_equal. apply (upd_ext_at _ _ _ _ no_obj). intros _. reflexivity.
  Qed.
End State.
