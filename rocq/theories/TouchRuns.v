(** TouchRuns: what touch() does. *)
From Verif Require Import Base Types Messages Resolver Reporter Errors Context Elements SpecTree SpecRead SpecApi SpecQuery SpecTouch Reads ErrorCaches ApiDoc ApiInv ApiState ApiOps Session SessionInv QueryProofs PropCopiesProofs TouchProofs.

Section Runs.
  Context (c0 : ctx) (HD : Doc (c_heap c0)).
  Let r := c_heap c0.
  Notation Inv := (Inv c0).
  Notation grow := (grow c0).
  Notation len s := (length (s_objs s)).

  Lemma opened_read s e : opened r s e -> exists k y, read_as s e k y.
  Proof. destruct 1; eauto. Qed.
  Lemma seen_opened s e : seen r s e -> opened r s e.
  Proof.
    induction 1 as [e k y Hk Hy Ht|e k y l Hk Hy Ht Hl Hz|e y l Hy Ht Hl Hz IH].
    - apply (op_value r s e k y); [destruct Hk; subst; discriminate|assumption].
    - apply (op_value r s e k y); [destruct Hk; subst; discriminate|assumption].
    - now apply (op_section r s e y l).
  Qed.
  Lemma opened_on s s' e : Inv s -> Inv s' -> grow s s' -> e < len s -> opened r s e -> opened r s' e.
  Proof.
    intros HI HI' G He H. induction H as [e k y Hk Hy|e y l Hy Hl Hz IH].
    - apply (op_value r s' e k y Hk). now apply (read_fwd c0 s).
    - destruct (slot_lt c0 s e _ y HI He Hy) as [Hlt V]. apply (op_section r s' e y l); [now apply (read_fwd c0 s)| |].
      + apply (opened_fwd c0 HD s); try assumption; discriminate.
      + intros z Hin. apply IH; [assumption|]. destruct Hl as [Hl|(_ & -> & _)]; [|destruct Hin]. apply (kid_lt c0 s y l z HI); [lia|assumption..].
  Qed.
  Lemma opened_was s s' e : Inv s -> Inv s' -> grow s s' -> e < len s -> opened r s' e -> opened r s e.
  Proof.
    intros HI HI' G He H.
    assert (S : forall e k y, e < len s -> read_as s' e k y -> read_as s e k y) by (intros a k y Ha; unfold read_as; now rewrite (gr_slot _ _ _ G a Ha)).
    induction H as [e k y Hk Hy|e y l Hy Hl Hz IH]; apply S in Hy; try assumption; destruct (slot_lt c0 s e _ y HI He Hy) as [Hlt V].
    - now apply (op_value r s e k y Hk).
    - apply (opened_back c0 s) in Hl; try assumption; try discriminate. destruct Hl as [Hl|[Hl1 Hl2]].
      + apply (op_section r s e y l); [assumption..|]. intros z Hin. apply IH; [assumption|]. destruct Hl as [Hl|(_ & -> & _)]; [|destruct Hin]. apply (kid_lt c0 s y l z HI); [lia|assumption..].
      + exfalso. destruct l as [|z l]; [contradiction|]. destruct (opened_read s' z (Hz z (or_introl eq_refl))) as (k & w & Hw). apply (new_unread c0 s s' z k w G); [|assumption]. apply Hl2. now left.
  Qed.

  (** ** What is touched lies below *)
  Lemma below_on s s' o y : Inv s -> ext s s' -> o < len s -> below s o y -> below s' o y /\ y < len s.
  Proof.
    intros HI X Ho. induction 1 as [|x l y _ [IH L] Hl Hy|x k y _ [IH L] Hy].
    - split; [constructor|assumption].
    - split; [|now apply (kid_lt c0 s x l y HI)]. apply (bl_child s' o x l y IH); [|assumption]. apply (xe_kids _ _ (ex_obj _ _ X x L) l Hl).
    - split; [|now apply (slot_lt c0 s x k y HI)]. apply (bl_read s' o x k y IH). now apply (xe_slot _ _ (ex_obj _ _ X x L)).
  Qed.
  Lemma below_trans s o x y : below s o x -> below s x y -> below s o y.
  Proof. intros H. induction 1; [assumption|eapply bl_child; eassumption|eapply bl_read; eassumption]. Qed.
  Definition within (o : nat) (s s' : st) : Prop := forall y, touched s' y -> touched s y \/ below s' o y.
  Lemma within_refl o s : within o s s. Proof. intros y H. now left. Qed.
  Lemma within_trans o a b d : Inv b -> ext b d -> o < len b -> within o a b -> within o b d -> within o a d.
  Proof.
    intros HI X Ho A B y H. destruct (B y H) as [B'|B']; [|now right]. destruct (A y B') as [A'|A']; [now left|right]. now apply (below_on b d).
  Qed.
  Lemma within_up o o' s s' : below s' o o' -> within o' s s' -> within o s s'.
  Proof. intros H W y Hy. destruct (W y Hy) as [|H']; [now left|right]. eapply below_trans; eassumption. Qed.

  Lemma made_within cl o p s s' ids : made cl o s s' ids -> within p s s'.
  Proof.
    intros [M1 M2 (m & M3) M4 M5] y Hy. left. unfold touched in *. destruct (Nat.lt_ge_cases y (len s)) as [Hlt|Hge].
    - destruct (Nat.eq_dec y o) as [->|Hne]; [now rewrite M3 in Hy|now rewrite M4 in Hy].
    - destruct (Nat.lt_ge_cases y (len s')) as [Hlt|Hge']; [destruct (M5 y) as (e & E); [lia|]; now rewrite E in Hy|]. unfold oget in Hy. now rewrite nth_overflow in Hy.
  Qed.
  Lemma touch_grow y s : Inv s -> Inv (upd_obj y with_touched s) /\ grow s (upd_obj y with_touched s) /\ within y s (upd_obj y with_touched s) /\ (y < len s -> touched (upd_obj y with_touched s) y).
  Proof.
    intro HI. destruct (touched_inv c0 y s HI) as [I1 X1]. assert (L : len (upd_obj y with_touched s) = len s) by (unfold upd_obj; cbn; apply upd_length). split; [assumption|].
    assert (F : forall (A : Type) (f : obj -> A), (forall x, f (with_touched x) = f x) -> forall o, f (oget (upd_obj y with_touched s) o) = f (oget s o)).
    { intros A f Hf o. rewrite touched_get. destruct (Nat.eqb_spec y o); [subst o|reflexivity]. cbn [andb]. destruct (Nat.ltb y (len s)); [apply Hf|reflexivity]. }
    split; [|split].
    - split; [assumption| | |].
      + intros o Ho k. apply (F _ (yield_slot k)). now destruct k.
      + intros o Ho. left. now apply (F _ o_children).
      + intros o Ho. rewrite L in Ho. lia.
    - intros z Hz. destruct (Nat.eq_dec z y) as [->|Hne]; [right; constructor|left]. unfold touched in *. rewrite touched_get in Hz. destruct (Nat.eqb_spec y z); [congruence|exact Hz].
    - intro Hy. unfold touched. rewrite touched_get, Nat.eqb_refl. cbn [andb]. destruct (Nat.ltb_spec y (len s)); [reflexivity|lia].
  Qed.

  (** ** touch() *)
  (** the outcome of touching [o], with [P] if it succeeds *)
  Definition touching (o : nat) (P : st -> Prop) (s : st) (x : st * res unit) : Prop := exists s' v, x = (s', v) /\ Inv s' /\ ext s s' /\ within o s s' /\
    (v = Ok tt /\ grow s s' /\ P s' \/ v = Raise Fuel /\ exists j, ~ ends r j).
  Lemma touching_seq o (P Q : st -> Prop) (m1 m2 : sM unit) s : Inv s -> o < len s -> touching o P s (m1 s) ->
    (forall s1, Inv s1 -> grow s s1 -> P s1 -> touching o Q s1 (m2 s1)) -> touching o Q s (mbind m1 (fun _ => m2) s).
  Proof.
    intros HI Ho (s1 & v & E & I1 & X1 & W1 & H) HQ. unfold mbind. rewrite E. destruct H as [(-> & G & HP)|(-> & Hj)].
    - destruct (HQ s1 I1 G HP) as (s2 & v & E2 & I2 & X2 & W2 & H2). exists s2, v. split; [assumption|]. split; [assumption|]. split; [eapply ext_trans; eassumption|].
      pose proof (ex_len _ _ X1). split; [apply (within_trans o s s1 s2); try assumption; lia|]. destruct H2 as [(-> & G2 & HQ2)|H2]; [left|now right]. split; [reflexivity|]. split; [eapply grow_trans; eassumption|assumption].
    - exists s1, (Raise Fuel). split; [reflexivity|]. repeat (split; [assumption|]). right. auto.
  Qed.
  Lemma touching_ret o s : Inv s -> touching o (fun s' => s' = s) s (ret tt s).
  Proof. intro HI. exists s, (Ok tt). split; [reflexivity|]. split; [assumption|]. split; [apply ext_refl|]. split; [apply within_refl|]. left. auto using grow_refl. Qed.
  Lemma touching_imp o (P Q : st -> Prop) s x : (forall s', P s' -> Q s') -> touching o P s x -> touching o Q s x.
  Proof. intros H (s1 & v & E & I1 & X1 & W1 & H1). exists s1, v. repeat (split; [assumption|]). destruct H1 as [(A & B & C)|H1]; [left; auto|now right]. Qed.
  Lemma touching_up o o' P s x : Inv s -> o < len s -> below s o o' -> touching o' P s x -> touching o P s x.
  Proof.
    intros HI Ho Hb (s1 & v & E & I1 & X1 & W1 & H1). exists s1, v. repeat (split; [assumption|]). split; [|assumption]. apply (within_up o o'); [|assumption]. now apply (below_on s s1).
  Qed.
  Lemma touching_one y s : Inv s -> y < len s -> touching y (fun s' => touched s' y) s (touch_obj y s).
  Proof.
    intros HI Hy. destruct (touch_grow y s HI) as (A & B & C & D). exists (upd_obj y with_touched s), (Ok tt). split; [reflexivity|]. split; [assumption|]. split; [apply (gr_ext _ _ _ B)|]. split; [assumption|].
    left. split; [reflexivity|]. auto.
  Qed.
  (** for all members of a list, with facts that stay *)
  Lemma touching_all (f : nat -> sM unit) o (P : nat -> st -> Prop) l : forall s, Inv s -> o < len s -> (forall e, In e l -> e < len s /\ below s o e) ->
    (forall e s1 s2, In e l -> Inv s1 -> Inv s2 -> grow s s1 -> grow s1 s2 -> P e s1 -> P e s2) ->
    (forall e s1, In e l -> Inv s1 -> grow s s1 -> touching e (P e) s1 (f e s1)) -> touching o (fun s' => forall e, In e l -> P e s') s (iterM f l s).
  Proof.
    induction l as [|a l IH]; intros s HI Ho Hl HP Hf; cbn [iterM].
    - apply (touching_imp o (fun s' => s' = s)); [intros s' _ e []|now apply touching_ret].
    - destruct (Hl a (or_introl eq_refl)) as [La Ba]. apply (touching_seq o (P a)); [assumption..|apply (touching_up o a); try assumption; apply Hf; [now left|assumption|apply grow_refl]|].
      intros s1 I1 G1 P1. pose proof (ex_len _ _ (gr_ext _ _ _ G1)) as L1.
      assert (Q : touching o (fun s' => forall e, In e l -> P e s') s1 (iterM f l s1)).
      { apply IH; try assumption; [lia| | |].
        - intros e He. destruct (Hl e (or_intror He)) as [A B]. split; [lia|]. now apply (below_on s s1 o e HI (gr_ext _ _ _ G1) Ho).
        - intros e s2 s3 He I2 I3 G2 G3. apply HP; [now right|assumption..|eapply grow_trans; eassumption|assumption].
        - intros e s2 He I2 G2. apply Hf; [now right|assumption|eapply grow_trans; eassumption]. }
      destruct Q as (s2 & v & E & I2 & X2 & W2 & H2). exists s2, v. repeat (split; [assumption|]). destruct H2 as [(A & B & C)|H2]; [left|now right]. split; [assumption|]. split; [assumption|].
      intros e [<-|He]; [|now apply C]. apply (HP a s1 s2); try assumption. now left.
  Qed.
  Lemma touching_kids children cl o s : children_spec c0 children cl -> ending c0 children cl -> Inv s -> valid s o cl -> (cl = CSection \/ cl = CFieldset \/ cl = CList) ->
    forall P k, (forall s1 ids, Inv s1 -> grow s s1 -> o_children (oget s1 o) = Some ids -> touching o P s1 (k ids s1)) -> touching o P s ((let! l := children o in k l) s).
  Proof.
    intros HS HE HI HV Hcl P k HK. destruct (HS o s HI HV) as (s1 & v & ids & E & H1 & H2 & H3 & H4). pose proof (made_within _ _ o _ _ _ H3) as W1. unfold mbind. rewrite E. destruct H4 as [->|(-> & H4 & H5)].
    - destruct (kids_quiet c0 children cl o s s1 ids HS HE HI HV Hcl E) as (I1 & Q1 & K1). pose proof (qu_grow _ _ _ Q1) as G1.
      destruct (HK s1 ids I1 G1 K1) as (s2 & v & E2 & I2 & X2 & W2 & R2). exists s2, v. split; [assumption|]. split; [assumption|]. split; [eapply ext_trans; eassumption|].
      pose proof (ex_len _ _ H2). split; [apply (within_trans o s s1 s2); try assumption; destruct HV; lia|]. destruct R2 as [(-> & G2 & HQ2)|R2]; [left|now right]. split; [reflexivity|]. split; [eapply grow_trans; eassumption|assumption].
    - exists s1, (Raise Fuel). split; [reflexivity|]. split; [assumption|]. split; [assumption|]. split; [assumption|]. right. split; [reflexivity|]. exists (o_instr (oget s o)). exact H4.
  Qed.
  Lemma kid_below s o ids z : o_children (oget s o) = Some ids -> In z ids -> below s o z.
  Proof. intros H Hz. eapply bl_child; [constructor|eassumption..]. Qed.

  (** a fieldset or list *)
  Lemma touching_group children k y s : children_spec c0 children (kind_class k) -> ending c0 children (kind_class k) -> k = KFieldset \/ k = KList -> Inv s -> valid s y (kind_class k) ->
    touching y (fun s' => touched s' y /\ exists l, o_children (oget s' y) = Some l /\ forall z, In z l -> touched s' z) s (touch_group children y s).
  Proof.
    intros HS HE Hk HI HV. unfold touch_group. apply (touching_seq y (fun s' => touched s' y)); [assumption|apply HV|apply touching_one; [assumption|apply HV]|].
    intros s1 I1 G1 T1. pose proof (valid_ext _ _ _ _ (gr_ext _ _ _ G1) HV) as V1. apply (touching_kids children (kind_class k)); try assumption; [destruct Hk; subst; auto|].
    intros s2 ids I2 G2 K2. pose proof (valid_ext _ _ _ _ (gr_ext _ _ _ G2) V1) as V2. pose proof (touched_fwd s1 s2 y (gr_ext _ _ _ G2) (proj1 V1) T1) as T2.
    assert (KL : forall z, In z ids -> y < z < len s2) by (intros z Hz; apply (kid_lt c0 s2 y ids z I2); [apply V2|assumption..]).
    assert (Q : touching y (fun s' => forall z, In z ids -> touched s' z) s2 (iterM touch_obj ids s2)).
    { apply (touching_all touch_obj y (fun z s' => touched s' z)); try assumption; [apply V2| | |].
      - intros z Hz. split; [now apply KL|]. now apply (kid_below s2 y ids).
      - intros z a b Hz Ia Ib Ga Gb. apply (touched_fwd a b); [apply (gr_ext _ _ _ Gb)|]. specialize (KL z Hz). pose proof (ex_len _ _ (gr_ext _ _ _ Ga)). lia.
      - intros z a Hz Ia Ga. apply touching_one; [assumption|]. specialize (KL z Hz). pose proof (ex_len _ _ (gr_ext _ _ _ Ga)). lia. }
    destruct Q as (s3 & v & E & I3 & X3 & W3 & H3). exists s3, v. repeat (split; [assumption|]). destruct H3 as [(A & B & C)|H3]; [left|now right]. split; [assumption|]. split; [assumption|].
    split; [apply (touched_fwd s2 s3); [assumption|apply V2|assumption]|]. exists ids. split; [|assumption]. apply (xe_kids _ _ (ex_obj _ _ X3 y (proj1 V2)) ids K2).
  Qed.

  Lemma touching_element N fuel : forall e s, Inv s -> low N s -> e < len s -> N - e < fuel -> touching e (fun s' => opened r s e -> seen r s' e) s (touch_element fuel e s).
  Proof.
    induction fuel as [|f IH]; intros e s HI HL He Hf; [lia|]. cbn [touch_element]. unfold mbind at 1, the_obj. destruct (o_yielded (oget s e)) as [t|] eqn:Ey.
    2:{ apply (touching_imp e (fun s' => s' = s)); [|now apply touching_ret]. intros s' -> Ho. exfalso. destruct (opened_read s e Ho) as (k & y & Hy). exact (slots_none c0 s e HI He Ey k y Hy). }
    destruct (yield_of c0 s e t HI He Ey) as (k & y & Hy). destruct (slot_cases c0 s e k y HI He Hy) as (E1 & E2 & E3 & E4 & E5). rewrite E1, E2, E3, E4, E5.
    destruct (slot_lt c0 s e k y HI He Hy) as [Hlt V]. assert (B : below s e y) by (eapply bl_read; [constructor|eassumption]).
    assert (R1 : forall (x : sM unit), (mbind (ret tt) (fun _ => x)) s = x s) by reflexivity.
    destruct k; cbn [touch_slot].
    1,2: rewrite ?R1; apply (touching_seq e (fun s' => touched s' y)); [assumption..|apply (touching_up e y); try assumption; apply touching_one; [assumption|apply V]|];
      intros s1 I1 G1 T1; apply (touching_imp e (fun s' => s' = s1)); [|exact (touching_ret e s1 I1)]; intros s' -> _; match type of Hy with read_as _ _ ?k _ => apply (se_value r s1 e k y); [auto|now apply (read_fwd c0 s)|assumption] end.
    - rewrite !R1. apply (touching_seq e (fun s' => touched s' y /\ exists l, o_children (oget s' y) = Some l /\ forall z, In z l -> touched s' z)); [assumption..| |].
      + apply (touching_up e y); try assumption. apply (touching_group fieldset_children KFieldset); auto; [now apply fieldset_spec|now apply fieldset_ending].
      + intros s1 I1 G1 (T1 & l & K1 & Z1). apply (touching_imp e (fun s' => s' = s1)); [|exact (touching_ret e s1 I1)]. intros s' -> _. apply (se_members r s1 e KFieldset y l); [auto|now apply (read_fwd c0 s)|assumption|now left|assumption].
    - rewrite !R1. apply (touching_seq e (fun s' => touched s' y /\ exists l, o_children (oget s' y) = Some l /\ forall z, In z l -> touched s' z)); [assumption..| |].
      + apply (touching_up e y); try assumption. apply (touching_group list_children KList); auto; [now apply list_spec|now apply list_ending].
      + intros s1 I1 G1 (T1 & l & K1 & Z1). apply (touching_imp e (fun s' => s' = s1)); [|exact (touching_ret e s1 I1)]. intros s' -> _. apply (se_members r s1 e KList y l); [auto|now apply (read_fwd c0 s)|assumption|now left|assumption].
    - rewrite !R1. assert (y < N) as HyN by (apply (proj2 HL e KSection); assumption).
      apply (touching_up e y); try assumption. apply (touching_seq y (fun s' => touched s' y)); [assumption|apply V|apply touching_one; [assumption|apply V]|].
      intros s1 I1 G1 T1. pose proof (valid_ext _ _ _ _ (gr_ext _ _ _ G1) V) as V1. apply (touching_kids section_children CSection); try assumption; [now apply section_spec|apply section_ending|now left|].
      intros s2 ids I2 G2 K2. pose proof (valid_ext _ _ _ _ (gr_ext _ _ _ G2) V1) as V2. pose proof (grow_trans _ _ _ _ G1 G2) as G12. pose proof (touched_fwd s1 s2 y (gr_ext _ _ _ G2) (proj1 V1) T1) as T2.
      assert (KL : forall z, In z ids -> y < z < len s2) by (intros z Hz; apply (kid_lt c0 s2 y ids z I2); [apply V2|assumption..]).
      assert (Q : touching y (fun s' => forall z, In z ids -> opened r s2 z -> seen r s' z) s2 (iterM (touch_element f) ids s2)).
      { apply (touching_all (touch_element f) y (fun z s' => opened r s2 z -> seen r s' z)); try assumption; [apply V2| | |].
        - intros z Hz. split; [now apply KL|]. now apply (kid_below s2 y ids).
        - intros z a b Hz Ia Ib Ga Gb HP Ho. apply (seen_fwd c0 HD a b); auto. specialize (KL z Hz). pose proof (ex_len _ _ (gr_ext _ _ _ Ga)). lia.
        - intros z a Hz Ia Ga. pose proof (ex_len _ _ (gr_ext _ _ _ Ga)). specialize (KL z Hz). apply (touching_imp z (fun s' => opened r a z -> seen r s' z)).
          + intros s' HP Ho. apply HP. apply (opened_on s2 a); try assumption. lia.
          + apply IH; try assumption; [|lia|lia]. apply (low_grow c0 N s a); [eapply grow_trans; eassumption|assumption]. }
      destruct Q as (s3 & v & E & I3 & X3 & W3 & H3). exists s3, v. repeat (split; [assumption|]). destruct H3 as [(-> & G3 & C)|H3]; [left|now right]. split; [reflexivity|]. split; [assumption|].
      pose proof (grow_trans _ _ _ _ G12 G3) as G123. intro Ho. apply (opened_on s s2) in Ho; try assumption. pose proof (read_fwd c0 s s2 e _ y G12 He Hy) as Hy2. pose proof (ex_len _ _ (gr_ext _ _ _ G12)) as L12.
      inversion Ho as [? k w Hk Hw|? w l Hw Hl Hz]; subst; destruct (read_one c0 s2 e _ _ _ _ I2 (Nat.lt_le_trans _ _ _ He L12) Hw Hy2) as [J1 J2]; subst; [now destruct Hk|].
      destruct Hl as [Hl|(Hl & _)]; [|congruence]. assert (l = ids) as -> by congruence.
      apply (se_section r s3 e y ids); [now apply (read_fwd c0 s)|apply (touched_fwd s2 s3); [assumption|apply V2|assumption]| |intros z Hz'; apply C; auto].
      left. apply (xe_kids _ _ (ex_obj _ _ X3 y (proj1 V2)) ids K2).
  Qed.

  Lemma all_opened_kids s s1 o ids only skip : Inv s -> Inv s1 -> valid s o CSection -> grow s s1 -> o_children (oget s1 o) = Some ids ->
    all_opened r s o only skip <-> forall e, In e ids -> left_out only skip (n_key (hget r (o_instr (oget s1 e)))) \/ opened r s1 e.
  Proof.
    intros HI I1 HV G1 K1. pose proof (gr_ext _ _ _ G1) as X1. pose proof (valid_ext _ _ _ _ X1 HV) as V1.
    assert (KL : forall z, In z ids -> o < z < len s1) by (intros z Hz; apply (kid_lt c0 s1 o ids z I1); [apply V1|assumption..]).
    destruct (gr_kids _ _ _ G1 o) as [Ek|(Ek1 & Ek2 & ids' & Ek3 & Ek4)]; [apply HV| |].
    - assert (IL : forall e, In e ids -> e < len s) by (intros e He; apply (kid_lt c0 s o ids e HI); [apply HV|congruence|assumption]).
      assert (II : forall e, In e ids -> o_instr (oget s1 e) = o_instr (oget s e)) by (intros e He; apply (instr_stays s s1 e X1); auto).
      split.
      + intros [(l & Hl & Hs)|(Hn & _)] e He; [|congruence]. assert (l = ids) as -> by congruence. rewrite II by assumption. destruct (Hs e He) as [Hs'|Hs']; [now left|right]. apply (opened_on s s1); auto.
      + intro Hs. left. exists ids. split; [congruence|]. intros e He. rewrite <- II by assumption. destruct (Hs e He) as [Hs'|Hs']; [now left|right]. apply (opened_was s s1); auto.
    - assert (ids' = ids) as -> by congruence. assert (NE : forall e, In e ids -> ~ opened r s1 e).
      { intros e He Ho. destruct (opened_read s1 e Ho) as (k & y & Hy). apply (new_unread c0 s s1 e k y G1); [|assumption]. split; [now apply Ek4|now apply KL]. }
      assert (LI : listed r KSection (o_instr (oget s o)) (map (fun z => o_instr (oget s1 z)) ids)).
      { rewrite <- (instr_stays s s1 o X1) by apply HV. apply (kids_listed c0); try assumption; try discriminate. now rewrite (instr_stays s s1 o X1) by apply HV. }
      split.
      + intros [(l & Hl & _)|(_ & L & HL' & Hs)] e He; [congruence|]. left. apply Hs. rewrite (listed_fun c0 HD KSection _ _ _ HL' LI). now apply (in_map (fun z => o_instr (oget s1 z))).
      + intro Hs. right. split; [assumption|]. exists (map (fun z => o_instr (oget s1 z)) ids). split; [exact LI|]. intros i Hi. apply in_map_iff in Hi as (z & <- & Hz).
        destruct (Hs z Hz) as [Hs'|Hs']; [assumption|]. now destruct (NE z Hz).
  Qed.
  Lemma touching_section o s : Inv s -> valid s o CSection ->
    touching o (fun s' => touched s' o /\ exists l, o_children (oget s' o) = Some l /\ forall only skip, all_opened r s o only skip <-> all_seen r s' o only skip) s (touch_section o s).
  Proof.
    intros HI HV. unfold touch_section. unfold mbind at 1, ofuel.
    assert (HL : low (len s) s). { split; [lia|]. intros a k y Ha Hy. apply (slot_lt c0 s a k y HI Ha Hy). }
    apply (touching_seq o (fun s' => touched s' o)); [assumption|apply HV|apply touching_one; [assumption|apply HV]|].
    intros s1 I1 G1 T1. pose proof (valid_ext _ _ _ _ (gr_ext _ _ _ G1) HV) as V1. apply (touching_kids section_children CSection); try assumption; [now apply section_spec|apply section_ending|now left|].
    intros s2 ids I2 G2 K2. pose proof (valid_ext _ _ _ _ (gr_ext _ _ _ G2) V1) as V2. pose proof (grow_trans _ _ _ _ G1 G2) as G12. pose proof (touched_fwd s1 s2 o (gr_ext _ _ _ G2) (proj1 V1) T1) as T2.
    assert (KL : forall z, In z ids -> o < z < len s2) by (intros z Hz; apply (kid_lt c0 s2 o ids z I2); [apply V2|assumption..]).
    assert (Q : touching o (fun s' => forall z, In z ids -> opened r s2 z -> seen r s' z) s2 (iterM (touch_element (S (len s))) ids s2)).
    { apply (touching_all (touch_element (S (len s))) o (fun z s' => opened r s2 z -> seen r s' z)); try assumption; [apply V2| | |].
      - intros z Hz. split; [now apply KL|]. now apply (kid_below s2 o ids).
      - intros z a b Hz Ia Ib Ga Gb HP Ho. apply (seen_fwd c0 HD a b); auto. specialize (KL z Hz). pose proof (ex_len _ _ (gr_ext _ _ _ Ga)). lia.
      - intros z a Hz Ia Ga. pose proof (ex_len _ _ (gr_ext _ _ _ Ga)). specialize (KL z Hz). apply (touching_imp z (fun s' => opened r a z -> seen r s' z)).
        + intros s' HP Ho. apply HP. apply (opened_on s2 a); try assumption. lia.
        + apply (touching_element (len s)); try assumption; [|lia|lia]. apply (low_grow c0 _ s a); [eapply grow_trans; eassumption|assumption]. }
    destruct Q as (s3 & v & E & I3 & X3 & W3 & H3). exists s3, v. repeat (split; [assumption|]). destruct H3 as [(-> & G3 & C)|H3]; [left|now right]. split; [reflexivity|]. split; [assumption|].
    pose proof (grow_trans _ _ _ _ G12 G3) as G123. split; [apply (touched_fwd s2 s3); [assumption|apply V2|assumption]|].
    assert (o_children (oget s3 o) = Some ids) as K3 by apply (xe_kids _ _ (ex_obj _ _ X3 o (proj1 V2)) ids K2). exists ids. split; [exact K3|]. intros only skip. split.
    - intro Ho. pose proof (proj1 (all_opened_kids s s2 o ids only skip HI I2 HV G12 K2) Ho) as Ho'. left. exists ids. split; [assumption|]. intros e He. rewrite (instr_stays s2 s3 e X3) by now apply KL.
      destruct (Ho' e He); [now left|right]. now apply C.
    - intro Hs. apply (proj2 (all_opened_kids s s3 o ids only skip HI I3 HV G123 K3)). destruct Hs as [(l & Hl & Hs)|(Hn & _)]; [|congruence]. assert (l = ids) as -> by congruence. intros e He.
      destruct (Hs e He); [now left|right]. now apply seen_opened.
  Qed.
End Runs.
