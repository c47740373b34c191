(** TouchCalls: which calls touch what. *)
From Verif Require Import Base Types Messages Resolver Reporter Errors Context Elements SpecTree SpecRead SpecApi SpecQuery SpecTouch Reads ErrorCaches ApiDoc ApiInv ApiState ApiOps Session SessionInv QueryProofs PropCopiesProofs TouchProofs TouchRuns Frames.

(** nothing but the objects in [T] is touched, and what is touched stays so *)
Definition tame (T : nat -> Prop) (s s' : st) : Prop := forall y, (touched s y -> touched s' y) /\ (touched s' y -> touched s y \/ T y).

Section Tame.
  Context (T : nat -> Prop).
  Lemma tame_refl s : tame T s s. Proof. intro y. auto. Qed.
  Lemma tame_trans a b d : tame T a b -> tame T b d -> tame T a d.
  Proof. intros H G y. destruct (H y) as [H1 H2], (G y) as [G1 G2]. split; [auto|]. intro Hy. destruct (G2 Hy); auto. Qed.
  Lemma tame_new cl i p s : tame T s (fst (new_obj cl i p s)).
  Proof.
    intro y. unfold new_obj, alloc, touched, oget. cbn [fst s_objs]. destruct (Nat.lt_ge_cases y (length (s_objs s))) as [H|H].
    - rewrite app_nth1 by assumption. auto.
    - rewrite (nth_overflow (s_objs s)) by assumption. rewrite app_nth2 by assumption. destruct (y - length (s_objs s)) as [|[|n]]; cbn; split; intro; discriminate.
  Qed.
  Lemma tame_mild o f s : mild f -> tame T s (upd_obj o f s).
  Proof.
    intros [_ _ _ M _] y. unfold touched. rewrite oget_upd_obj. destruct (Nat.eqb_spec o y); cbn [andb]; [|auto]. subst y. destruct (Nat.ltb o (length (s_objs s))); [rewrite M; auto|auto].
  Qed.
  Lemma tame_req o b s : tame T s (upd_obj o (with_req b) s).
  Proof.
    intro y. unfold touched. rewrite oget_upd_obj. destruct (Nat.eqb_spec o y); cbn [andb]; [|auto]. subst y. destruct (Nat.ltb o (length (s_objs s))); auto.
  Qed.
  Lemma tame_heap s h : tame T s (MkSt (with_heap (s_ctx s) h) (s_objs s)).
  Proof. intro y. unfold touched, oget. cbn. auto. Qed.
  Lemma tame_touch o s : T o -> tame T s (upd_obj o with_touched s).
  Proof.
    intros HT y. unfold touched. rewrite oget_upd_obj. destruct (Nat.eqb_spec o y); cbn [andb]; [|auto]. subst y. destruct (Nat.ltb o (length (s_objs s))); auto.
  Qed.
  Lemma tame_call c s : allowed T True c -> tame T s (fst (run_call c s)).
  Proof.
    intro H. apply (fr_call (tame T) T True); auto using tame_refl, tame_new, tame_mild, tame_heap, tame_touch, tame_req. apply tame_trans.
  Qed.
  Definition tame_m {A} (m : sM A) := frame (tame T) m.
  Lemma tame_value {A} o (ld : loader A) q : T o -> frame (tame T) (value_of o ld q).
  Proof. intro H. apply (fr_value (tame T) T); auto using tame_refl, tame_heap, tame_touch. apply tame_trans. Qed.
  Lemma tame_mapM {A B} (f : A -> sM B) l : (forall a, In a l -> frame (tame T) (f a)) -> frame (tame T) (mapM f l).
  Proof. intro H. apply fr_mapM; auto using tame_refl. apply tame_trans. Qed.
End Tame.

(** touching an object that is used anyway changes nothing *)
Definition anyway {A} (o : nat) (m : sM A) : Prop := forall s, m (upd_obj o with_touched s) = m s.
Lemma twice o s : upd_obj o with_touched (upd_obj o with_touched s) = upd_obj o with_touched s.
Proof. unfold upd_obj. cbn [s_ctx s_objs]. f_equal. generalize (s_objs s). intro l. revert o. induction l as [|x l IH]; intros [|o]; cbn; f_equal. apply IH. Qed.
Lemma aw_touch o : anyway o (touch_obj o).
Proof. intro s. unfold touch_obj, oset. now rewrite twice. Qed.
Lemma aw_bind {A B} o (m : sM A) (k : A -> sM B) : anyway o m -> anyway o (mbind m k).
Proof. intros H s. unfold mbind. now rewrite H. Qed.
Lemma touched_len o s : length (s_objs (upd_obj o with_touched s)) = length (s_objs s).
Proof. unfold upd_obj. cbn. apply upd_length. Qed.
Lemma touch_at o s : touch o s = match o_class (oget s o) with
  | CSection => (touch_obj o ;; let! l := section_children o in iterM (touch_element (S (length (s_objs s)))) l) s
  | CSectionElement | CElement => touch_element (S (length (s_objs s))) o s
  | CFieldset => touch_group fieldset_children o s
  | CList => touch_group list_children o s
  | _ => touch_obj o s
  end.
Proof. unfold touch, mbind at 1, the_obj. destruct (o_class (oget s o)); reflexivity. Qed.
Lemma aw_call c s : uses c (o_class (oget s (subject c))) -> run_call c (upd_obj (subject c) with_touched s) = run_call c s.
Proof.
  destruct c; cbn [uses subject run_call]; try contradiction; intro HU.
  all: try (revert s HU; intros s _; apply aw_bind; first [unfold query|unfold section_elements|unfold plural|unfold entry_query|unfold fieldset_entries|unfold list_values|unfold list_items|unfold value_of|unfold comment_of|unfold key_with|unfold string_key];
    solve [repeat (first [apply aw_touch|apply aw_bind])]).
  rewrite !touch_at, touched_len. rewrite oget_upd_obj, Nat.eqb_refl. cbn [andb].
  replace (o_class (if Nat.ltb o (length (s_objs s)) then with_touched (oget s o) else oget s o)) with (o_class (oget s o)) by (destruct (Nat.ltb o (length (s_objs s))); reflexivity).
  destruct (o_class (oget s o)) eqn:Ec; try (exfalso; destruct HU; congruence); try apply aw_touch; apply aw_bind, aw_touch.
Qed.

Section Calls.
  Context (c0 : ctx) (HD : Doc (c_heap c0)).
  Let r := c_heap c0.
  Notation Inv := (Inv c0).
  Notation len s := (length (s_objs s)).

  Lemma touched_used c s : subject c < len s -> uses c (o_class (oget s (subject c))) -> touched (fst (run_call c s)) (subject c).
  Proof.
    intros Ho HU. rewrite <- (aw_call c s HU). apply (tame_call (fun _ => True)); [destruct c; cbn; auto|]. unfold touched. rewrite oget_upd_obj, Nat.eqb_refl. cbn [andb].
    destruct (Nat.ltb_spec (subject c) (len s)); [reflexivity|lia].
  Qed.
  Lemma touch_within o s : Inv s -> o < len s -> within o s (fst (touch o s)).
  Proof.
    intros HI Ho. unfold touch. unfold mbind at 1, the_obj. destruct (o_class (oget s o)) eqn:Ec.
    all: try (destruct (touching_one c0 o s HI Ho) as (s' & v & E & _ & _ & W & _); rewrite E; exact W).
    - destruct (touching_section c0 HD o s HI (conj Ho Ec)) as (s' & v & E & _ & _ & W & _). rewrite E. exact W.
    - unfold mbind, ofuel. destruct (touching_element c0 HD (len s) (S (len s)) o s HI) as (s' & v & E & _ & _ & W & _); [|assumption|lia|rewrite E; exact W].
      split; [lia|]. intros a k y Ha Hy. apply (slot_lt c0 s a k y HI Ha Hy).
    - unfold mbind, ofuel. destruct (touching_element c0 HD (len s) (S (len s)) o s HI) as (s' & v & E & _ & _ & W & _); [|assumption|lia|rewrite E; exact W].
      split; [lia|]. intros a k y Ha Hy. apply (slot_lt c0 s a k y HI Ha Hy).
    - destruct (touching_group c0 fieldset_children KFieldset o s) as (s' & v & E & _ & _ & W & _); [now apply fieldset_spec|now apply fieldset_ending|auto|assumption|split; assumption|rewrite E; exact W].
    - destruct (touching_group c0 list_children KList o s) as (s' & v & E & _ & _ & W & _); [now apply list_spec|now apply list_ending|auto|assumption|split; assumption|rewrite E; exact W].
  Qed.
  Lemma touched_by c s y : Inv s -> subject c < len s -> callable c (o_class (oget s (subject c))) -> touched (fst (run_call c s)) y ->
    touched s y \/ (y = subject c /\ uses c (o_class (oget s y))) \/ also_uses c (fst (run_call c s)) y.
  Proof.
    intros HI Ho Hc Hy. destruct c; match type of Hy with touched (fst (run_call ?c s)) y =>
      try (destruct (proj2 (tame_call (fun z => False) c s I y) Hy) as [H|[]]; now left);
      try (destruct (proj2 (tame_call (fun z => z = subject c) c s eq_refl y) Hy) as [H|H]; [now left|right; left; split; [exact H|exact I]]) end.
    - cbn [subject callable] in *. cbn [run_call also_uses] in *. destruct (list_spec c0 HD o (upd_obj o with_touched s)) as (s1 & v & ids & E & H1 & H2 & H3 & H4).
      { apply (touched_inv c0 o s HI). } { apply (valid_ext s); [apply (touched_inv c0 o s HI)|split; idtac; [exact Ho|exact Hc]]. }
      destruct (ok_values c0 HD o ld required s HI (conj Ho Hc)) as [I' X'].
      assert (EQ : fst ((let! _ := list_values o ld required in ret tt) s) = fst (list_values o ld required s)). { unfold mbind. destruct (list_values o ld required s) as [s2 [a|e]]; reflexivity. }
      rewrite EQ in *. clear EQ.
      assert (EV : list_values o ld required s = match v with Ok l => mapM (fun i => value_of i ld required) l s1 | Raise e => (s1, Raise e) end).
      { unfold list_values, list_items. unfold mbind at 1 2. unfold touch_obj, oset. rewrite E. destruct v; reflexivity. }
      rewrite EV in *.
      assert (TT : touched s1 y -> touched s y \/ y = o).
      { intro Ht. assert (touched (upd_obj o with_touched s) y) as Ht'. { destruct (made_within _ _ y _ _ _ H3 y Ht) as [G|G]; [assumption|].
          unfold touched in *. destruct (Nat.lt_ge_cases y (len (upd_obj o with_touched s))) as [L|L].
          - destruct (Nat.eq_dec y o) as [->|Hne].
            + destruct H3 as [M1 M2 (m & M3) M4 M5]. now rewrite M3 in Ht.
            + destruct H3 as [M1 M2 (m & M3) M4 M5]. now rewrite M4 in Ht.
          - destruct (Nat.lt_ge_cases y (len s1)) as [L'|L']; [destruct (md_new _ _ _ _ _ H3 y) as (e & Ee); [lia|]; rewrite Ee in Ht; discriminate|].
            unfold oget in Ht. now rewrite nth_overflow in Ht. }
        destruct (proj2 (tame_touch (fun z => z = o) o s eq_refl y) Ht'); auto. }
      destruct H4 as [->|(-> & _)]; [|destruct (TT Hy) as [| ->]; [now left|right; left; split; [reflexivity|exact I]]].
      assert (TM : tame (fun z => In z ids) s1 (fst (mapM (fun i => value_of i ld required) ids s1))) by (apply tame_mapM; intros; now apply tame_value).
      destruct (proj2 (TM y) Hy) as [Hs1|Hin]; [destruct (TT Hs1) as [| ->]; [now left|right; left; split; [reflexivity|exact I]]|].
      right. right. exists ids. split; [|assumption]. pose proof (made_kids _ _ _ _ _ H3) as K1.
      assert (X2 : ext s1 (fst (mapM (fun i => value_of i ld required) ids s1))) by (apply (ok_mapM c0); [assumption|]; intros; now apply ok_value).
      destruct (valid_ext _ _ _ _ H2 (valid_ext s _ _ _ (proj2 (touched_inv c0 o s HI)) (conj Ho Hc))) as [L1 _]. apply (xe_kids _ _ (ex_obj _ _ X2 o L1) ids K1).
    - destruct (touch_within o s HI Ho y Hy) as [H|H]; [now left|]. right. right. exact H.
  Qed.
End Calls.
