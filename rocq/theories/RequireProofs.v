(** RequireProofs: all_elements_required(). *)
From Verif Require Import Base Types Messages Resolver Reporter Errors Context Elements SpecTree SpecRead SpecApi SpecQuery SpecTouch SpecRequire Reads ErrorCaches ApiDoc ApiInv ApiState ApiOps Session SessionInv QueryProofs PropCopiesProofs TouchProofs TouchRuns Frames.

Section Require.
  Context (c0 : ctx) (HD : Doc (c_heap c0)).
  Let r := c_heap c0.
  Notation Inv := (Inv c0).
  Notation grow := (grow c0).
  Notation len s := (length (s_objs s)).

  Lemma elem_type s e : Inv s -> n_type (hget (c_heap (s_ctx s)) (o_instr (oget s e))) = n_type (hget r (o_instr (oget s e))).
  Proof. intro HI. apply type_is with (c0 := c0). assumption. Qed.

  Lemma ready_on s s' o : Inv s -> Inv s' -> grow s s' -> valid s o CSection -> ready r s o -> ready r s' o.
  Proof.
    intros HI HI' G V H. pose proof (gr_ext _ _ _ G) as X. revert V. induction H as [o l Hl He Hy IH|o L Hn HL Ht]; intro V.
    - assert (KL : forall e, In e l -> o < e < len s) by (intros e H; apply (kid_lt c0 s o l e HI); [apply V|assumption..]).
      assert (S : forall e k y, In e l -> read_as s' e k y <-> read_as s e k y) by (intros e k y H; unfold read_as; rewrite (gr_slot _ _ _ G e) by (now apply KL); reflexivity).
      apply (rd_listed r s' o l); [apply (xe_kids _ _ (ex_obj _ _ X o (proj1 V)) l Hl)| |].
      + intros e H. rewrite (instr_stays s s' e X) by now apply KL. intro Hty. destruct (He e H Hty) as (k & y & Hk). exists k, y. now apply S.
      + intros e y H Hr. apply S in Hr; [|assumption]. apply (IH e y H Hr). now apply (slot_lt c0 s e _ y HI (proj2 (KL e H)) Hr).
    - destruct (gr_kids _ _ _ G o (proj1 V)) as [E|(E1 & E2 & ids & E3 & E4)].
      + apply (rd_unlisted r s' o L); [congruence|now rewrite (instr_stays s s' o X) by apply V|assumption].
      + pose proof (valid_ext _ _ _ _ X V) as V'. pose proof (kids_listed c0 s' KSection o ids HI' V') as K. rewrite (instr_stays s s' o X) in K by apply V.
        assert (EL : L = map (fun z => o_instr (oget s' z)) ids) by (apply (listed_fun c0 HD KSection (o_instr (oget s o))); [exact HL|apply K; try assumption; discriminate]).
        assert (KL : forall e, In e ids -> o < e < len s') by (intros e H; apply (kid_lt c0 s' o ids e HI'); [apply V'|assumption..]).
        apply (rd_listed r s' o ids E3).
        * intros e H Hty. exfalso. destruct (Ht (o_instr (oget s' e))) as [T1 T2]; [rewrite EL; now apply (in_map (fun z => o_instr (oget s' z)))|]. destruct Hty; contradiction.
        * intros e y H Hr. exfalso. apply (new_unread c0 s s' e KSection y G); [|assumption]. split; [now apply E4|now apply KL].
  Qed.
  Lemma ready_was s s' o : Inv s -> Inv s' -> grow s s' -> valid s o CSection -> ready r s' o -> ready r s o.
  Proof.
    intros HI HI' G V H. pose proof (gr_ext _ _ _ G) as X. revert V. induction H as [o l Hl He Hy IH|o L Hn HL Ht]; intro V.
    - destruct (gr_kids _ _ _ G o (proj1 V)) as [E|(E1 & E2 & ids & E3 & E4)].
      + rewrite E in Hl. assert (KL : forall e, In e l -> o < e < len s) by (intros e H; apply (kid_lt c0 s o l e HI); [apply V|assumption..]).
        assert (S : forall e k y, In e l -> read_as s' e k y <-> read_as s e k y) by (intros e k y H; unfold read_as; rewrite (gr_slot _ _ _ G e) by (now apply KL); reflexivity).
        apply (rd_listed r s o l); [assumption| |].
        * intros e H. rewrite <- (instr_stays s s' e X) by now apply KL. intro Hty. destruct (He e H Hty) as (k & y & Hk). exists k, y. now apply S.
        * intros e y H Hr. apply (IH e y H); [now apply S|]. now apply (slot_lt c0 s e _ y HI (proj2 (KL e H)) Hr).
      + assert (l = ids) as -> by congruence. pose proof (valid_ext _ _ _ _ X V) as V'. pose proof (kids_listed c0 s' KSection o ids HI' V') as K. rewrite (instr_stays s s' o X) in K by apply V.
        assert (KL : forall e, In e ids -> o < e < len s') by (intros e H; apply (kid_lt c0 s' o ids e HI'); [apply V'|assumption..]).
        apply (rd_unlisted r s o (map (fun z => o_instr (oget s' z)) ids)); [assumption|apply K; try assumption; discriminate|]. intros i Hi. apply in_map_iff in Hi as (e & <- & H).
        assert (NE : ~ (n_type (hget r (o_instr (oget s' e))) = SECTION \/ n_type (hget r (o_instr (oget s' e))) = FIELDSET)); [|tauto].
        intro Hty. destruct (He e H Hty) as (k & y & Hr). apply (new_unread c0 s s' e k y G); [|assumption]. split; [now apply E4|now apply KL].
    - destruct (gr_kids _ _ _ G o (proj1 V)) as [E|(E1 & E2 & ids & E3 & E4)]; [|congruence]. apply (rd_unlisted r s o L); [congruence|now rewrite <- (instr_stays s s' o X) by apply V|assumption].
  Qed.

  (** ** The flags *)
  Definition setting (b : bool) (s s' : st) : Prop := forall y, y < len s -> o_req (oget s' y) = o_req (oget s y) \/ o_req (oget s' y) = b.
  Lemma setting_refl b s : setting b s s. Proof. now left. Qed.
  Lemma setting_trans b s s1 s2 : ext s s1 -> setting b s s1 -> setting b s1 s2 -> setting b s s2.
  Proof.
    intros X A B y Hy. pose proof (ex_len _ _ X). destruct (A y Hy) as [A1|A1], (B y) as [B1|B1]; try lia; [left; congruence|now right|right; congruence|now right].
  Qed.
  Inductive flags (b : bool) (s : st) : nat -> Prop :=
  | fl o l : o_req (oget s o) = b -> o_children (oget s o) = Some l ->
      (forall e y, In e l -> read_as s e KSection y -> flags b s y) ->
      (forall e y, In e l -> read_as s e KFieldset y -> n_type (hget r (o_instr (oget s e))) = FIELDSET -> o_req (oget s y) = b) -> flags b s o.
  Lemma flags_on b s s' o : Inv s -> grow s s' -> setting b s s' -> valid s o CSection -> flags b s o -> flags b s' o.
  Proof.
    intros HI G S V H. pose proof (gr_ext _ _ _ G) as X. revert V. induction H as [o l Hr Hl Hs IH Hf]; intro V.
    assert (B : forall y, y < len s -> o_req (oget s y) = b -> o_req (oget s' y) = b) by (intros y Hy Hb; destruct (S y Hy) as [E|E]; congruence).
    assert (KL : forall e, In e l -> o < e < len s) by (intros e H; apply (kid_lt c0 s o l e HI); [apply V|assumption..]).
    assert (SL : forall e k y, In e l -> read_as s' e k y -> read_as s e k y) by (intros e k y H; unfold read_as; rewrite (gr_slot _ _ _ G e) by (now apply KL); auto).
    apply (fl b s' o l); [apply B; [apply V|assumption]|apply (xe_kids _ _ (ex_obj _ _ X o (proj1 V)) l Hl)| |].
    - intros e y H Hy. apply SL in Hy; [|assumption]. apply (IH e y H Hy). now apply (slot_lt c0 s e _ y HI (proj2 (KL e H)) Hy).
    - intros e y H Hy. apply SL in Hy; [|assumption]. rewrite (instr_stays s s' e X) by now apply KL. intro Hty. destruct (slot_lt c0 s e _ y HI (proj2 (KL e H)) Hy) as [L _]. apply B; [lia|]. now apply (Hf e y).
  Qed.

  Definition requiring (b : bool) (P N : st -> Prop) (s : st) (x : st * res unit) : Prop := exists s' v, x = (s', v) /\ Inv s' /\
    ((v = Ok tt /\ grow s s' /\ setting b s s' /\ P s') \/ (v = Raise AttributeError /\ N s) \/ (v = Raise Fuel /\ exists j, ~ ends r j)).

  Lemma setting_req b o s : Inv s -> Inv (upd_obj o (with_req b) s) /\ grow s (upd_obj o (with_req b) s) /\ setting b s (upd_obj o (with_req b) s) /\ (o < len s -> o_req (oget (upd_obj o (with_req b) s) o) = b).
  Proof.
    intro HI. destruct (ok_req c0 o b s HI) as [I1 X1]. cbn in I1, X1. assert (L : len (upd_obj o (with_req b) s) = len s) by (unfold upd_obj; cbn; apply upd_length). split; [assumption|].
    assert (F : forall (A : Type) (f : obj -> A), (forall x, f (with_req b x) = f x) -> forall i, f (oget (upd_obj o (with_req b) s) i) = f (oget s i)).
    { intros A f Hf i. rewrite oget_upd_obj. destruct (Nat.eqb_spec o i); [subst i|reflexivity]. cbn [andb]. destruct (Nat.ltb o (len s)); [apply Hf|reflexivity]. }
    split; [|split].
    - split; [assumption| | |].
      + intros i Hi k. apply (F _ (yield_slot k)). now destruct k.
      + intros i Hi. left. now apply (F _ o_children).
      + intros i Hi. rewrite L in Hi. lia.
    - intros y Hy. rewrite oget_upd_obj. destruct (Nat.eqb_spec o y); [subst y|now left]. cbn [andb]. destruct (Nat.ltb o (len s)); [now right|now left].
    - intro Ho. rewrite oget_upd_obj, Nat.eqb_refl. cbn [andb]. destruct (Nat.ltb_spec o (len s)); [reflexivity|lia].
  Qed.
  Lemma quiet_req b cl o s s' ids : made cl o s s' ids -> setting b s s'.
  Proof. intros [M1 M2 (m & M3) M4 M5] y Hy. left. destruct (Nat.eq_dec y o) as [->|Hne]; [now rewrite M3|now rewrite M4]. Qed.

  (** the elements one after the other *)
  Lemma requiring_all b (f : nat -> sM unit) (P N : nat -> st -> Prop) l : forall s, Inv s ->
    (forall e s1 s2, In e l -> Inv s1 -> Inv s2 -> grow s s1 -> grow s1 s2 -> setting b s1 s2 -> P e s1 -> P e s2) ->
    (forall e s1 s2, In e l -> Inv s1 -> Inv s2 -> grow s s1 -> grow s1 s2 -> N e s2 -> N e s1) ->
    (forall e s1, In e l -> Inv s1 -> grow s s1 -> requiring b (P e) (N e) s1 (f e s1)) ->
    requiring b (fun s' => forall e, In e l -> P e s') (fun s => exists e, In e l /\ N e s) s (iterM f l s).
  Proof.
    induction l as [|a l IH]; intros s HI HP HN Hf; cbn [iterM].
    - exists s, (Ok tt). split; [reflexivity|]. split; [assumption|]. left. split; [reflexivity|]. split; [apply grow_refl|]. split; [apply setting_refl|]. intros e [].
    - unfold mbind. destruct (Hf a s) as (s1 & v & E & I1 & H); [now left|assumption|apply grow_refl|]. rewrite E. destruct H as [(-> & G1 & S1 & P1)|[(-> & N1)|(-> & F1)]].
      + destruct (IH s1 I1) as (s2 & v & E2 & I2 & H2).
        * intros e a1 a2 He J1 J2 Ga Gb. apply HP; [now right|assumption..|eapply grow_trans; eassumption|assumption].
        * intros e a1 a2 He J1 J2 Ga Gb. apply HN; [now right|assumption..|eapply grow_trans; eassumption|assumption].
        * intros e a1 He J1 Ga. apply Hf; [now right|assumption|eapply grow_trans; eassumption].
        * exists s2, v. split; [assumption|]. split; [assumption|]. destruct H2 as [(-> & G2 & S2 & P2)|[(-> & e & He & N2)|(-> & F2)]].
          -- left. split; [reflexivity|]. split; [eapply grow_trans; eassumption|]. split; [eapply setting_trans; [apply (gr_ext _ _ _ G1)|eassumption..]|].
             intros e [<-|He]; [|now apply P2]. apply (HP a s1 s2); try assumption. now left.
          -- right. left. split; [reflexivity|]. exists e. split; [now right|]. apply (HN e s s1); try assumption; [now right|apply grow_refl].
          -- right. right. auto.
      + exists s1, (Raise AttributeError). split; [reflexivity|]. split; [assumption|]. right. left. split; [reflexivity|]. exists a. split; [now left|assumption].
      + exists s1, (Raise Fuel). split; [reflexivity|]. split; [assumption|]. right. right. auto.
  Qed.

  (** what holds for an element that was dealt with, and what it lacks otherwise *)
  Definition dealt (b : bool) (e : nat) (s : st) : Prop := (forall y, read_as s e KSection y -> flags b s y) /\
    (forall y, read_as s e KFieldset y -> n_type (hget r (o_instr (oget s e))) = FIELDSET -> o_req (oget s y) = b) /\
    (n_type (hget r (o_instr (oget s e))) = SECTION \/ n_type (hget r (o_instr (oget s e))) = FIELDSET -> exists k y, read_as s e k y) /\
    (forall y, read_as s e KSection y -> ready r s y).
  Definition lacks (e : nat) (s : st) : Prop :=
    ((n_type (hget r (o_instr (oget s e))) = SECTION \/ n_type (hget r (o_instr (oget s e))) = FIELDSET) /\ forall k y, ~ read_as s e k y) \/
    (exists y, read_as s e KSection y /\ ~ ready r s y).

  Lemma require_is b N fuel : forall o s, Inv s -> low N s -> valid s o CSection -> N - o < fuel ->
    requiring b (fun s' => flags b s' o /\ ready r s o) (fun s => ~ ready r s o) s (require_all fuel o b s).
  Proof.
    induction fuel as [|f IH]; intros o s HI HL V Hf; [lia|]. cbn [require_all].
    destruct (setting_req b o s HI) as (I1 & G1 & S1 & B1). specialize (B1 (proj1 V)). unfold mbind at 1, oset. set (s1 := upd_obj o (with_req b) s) in *. pose proof (valid_ext _ _ _ _ (gr_ext _ _ _ G1) V) as V1.
    destruct (section_spec c0 HD o s1 I1 V1) as (s2 & v & ids & E & H1 & H2 & H3 & H4). unfold mbind at 1. rewrite E. destruct H4 as [->|(-> & H4 & H5)].
    2:{ exists s2, (Raise Fuel). split; [reflexivity|]. split; [assumption|]. right. right. split; [reflexivity|]. exists (o_instr (oget s1 o)). exact H4. }
    destruct (kids_quiet c0 section_children CSection o s1 s2 ids (section_spec c0 HD) (section_ending c0) I1 V1) as (I2 & Q2 & K2); [now left|assumption|].
    pose proof (qu_grow _ _ _ Q2) as G2. pose proof (grow_trans _ _ _ _ G1 G2) as G12. pose proof (gr_ext _ _ _ G12) as X12. pose proof (valid_ext _ _ _ _ X12 V) as V2. pose proof (ex_len _ _ X12) as L12.
    assert (S12 : setting b s s2) by (eapply setting_trans; [apply (gr_ext _ _ _ G1)|exact S1|eapply quiet_req; exact H3]).
    assert (KL : forall z, In z ids -> o < z < len s2) by (intros z Hz; apply (kid_lt c0 s2 o ids z I2); [apply V2|assumption..]).
    assert (KC : forall z, In z ids -> is_elem (o_class (oget s2 z)) = true).
    { intros z Hz. destruct (kid_valid c0 s2 o ids z I2 (proj1 V2) K2 Hz) as ((_ & Hc) & _). rewrite Hc, (proj2 V2). reflexivity. }
    match goal with |- requiring _ _ _ _ (iterM ?g ids s2) => assert (Q : requiring b (fun s' => forall e, In e ids -> dealt b e s') (fun s => exists e, In e ids /\ lacks e s) s2 (iterM g ids s2)) end.
    { apply (requiring_all b _ (dealt b) lacks); [assumption| | |].
      - intros e a1 a2 He J1 J2 Ga Gb Sb (D1 & D2 & D3 & D4). specialize (KL e He). pose proof (ex_len _ _ (gr_ext _ _ _ Ga)) as La. assert (e < len a1) as Le by lia.
        assert (SL : forall k y, read_as a2 e k y <-> read_as a1 e k y) by (intros k y; unfold read_as; rewrite (gr_slot _ _ _ Gb e Le); reflexivity).
        unfold dealt. rewrite (instr_stays a1 a2 e (gr_ext _ _ _ Gb) Le). split; [|split; [|split]].
        + intros y Hy. apply SL in Hy. destruct (slot_lt c0 a1 e _ y J1 Le Hy) as [_ Vy]. apply (flags_on b a1 a2); auto.
        + intros y Hy Hty. apply SL in Hy. destruct (slot_lt c0 a1 e _ y J1 Le Hy) as [Ly _]. destruct (Sb y) as [Eb|Eb]; [lia| |assumption]. rewrite Eb. now apply D2.
        + intro Hty. destruct (D3 Hty) as (k & y & Hy). exists k, y. now apply SL.
        + intros y Hy. apply SL in Hy. destruct (slot_lt c0 a1 e _ y J1 Le Hy) as [_ Vy]. apply (ready_on a1 a2); auto.
      - intros e a1 a2 He J1 J2 Ga Gb. specialize (KL e He). pose proof (ex_len _ _ (gr_ext _ _ _ Ga)) as La. assert (e < len a1) as Le by lia.
        assert (SL : forall k y, read_as a2 e k y <-> read_as a1 e k y) by (intros k y; unfold read_as; rewrite (gr_slot _ _ _ Gb e Le); reflexivity).
        unfold lacks. rewrite (instr_stays a1 a2 e (gr_ext _ _ _ Gb) Le). intros [(Hty & Hn)|(y & Hy & Hn)].
        + left. split; [assumption|]. intros k y Hy. apply (Hn k y). now apply SL.
        + right. exists y. apply SL in Hy. split; [assumption|]. intro Hr. apply Hn. destruct (slot_lt c0 a1 e _ y J1 Le Hy) as [_ Vy]. apply (ready_on a1 a2); auto.
      - intros e a He Ja Ga. specialize (KL e He). pose proof (ex_len _ _ (gr_ext _ _ _ Ga)) as La. assert (e < len a) as Le by lia.
        assert (Ce : is_elem (o_class (oget a e)) = true) by (rewrite (xe_class _ _ (ex_obj _ _ (gr_ext _ _ _ Ga) e (proj2 KL))); now apply KC).
        unfold mbind at 1, the_obj. unfold mbind at 1, inode. rewrite (elem_type a e Ja).
        assert (ACC : forall k y, read_as a e k y -> accepts k (n_type (hget r (o_instr (oget a e)))) = true) by (intros k y Hy; apply (oo_slot _ _ _ _ (iv_obj _ _ Ja e Le) k y Hy)).
        assert (SK : n_type (hget r (o_instr (oget a e))) <> SECTION -> n_type (hget r (o_instr (oget a e))) <> FIELDSET -> requiring b (dealt b e) (lacks e) a (ret tt a)).
        { intros T1 T2. exists a, (Ok tt). split; [reflexivity|]. split; [assumption|]. left. split; [reflexivity|]. split; [apply grow_refl|]. split; [apply setting_refl|]. split; [|split; [|split]].
          - intros y Hy. apply ACC in Hy. destruct (n_type (hget r (o_instr (oget a e)))); try discriminate; contradiction.
          - intros y Hy Hty. contradiction.
          - intros [Hty|Hty]; contradiction.
          - intros y Hy. apply ACC in Hy. destruct (n_type (hget r (o_instr (oget a e)))); try discriminate; contradiction. }
        assert (UN : n_type (hget r (o_instr (oget a e))) = SECTION \/ n_type (hget r (o_instr (oget a e))) = FIELDSET -> o_yielded (oget a e) = None -> requiring b (dealt b e) (lacks e) a (raise AttributeError a)).
        { intros Hty Hn. exists a, (Raise AttributeError). split; [reflexivity|]. split; [assumption|]. right. left. split; [reflexivity|]. left. split; [exact Hty|]. now apply (slots_none c0 a e). }
        destruct (n_type (hget r (o_instr (oget a e)))) eqn:Ety; try (apply SK; discriminate).
        + destruct (o_yielded (oget a e)) as [t|] eqn:Ey; [|apply UN; auto]. destruct (yield_of c0 a e t Ja Le Ey) as (k & y & Hy).
          assert (k = KFieldset) as -> by (pose proof (ACC k y Hy) as Hacc; destruct k; try discriminate; reflexivity).
          unfold mbind. rewrite (to_kind_is c0 KFieldset e a Ja Le Ce). unfold read_as in Hy. rewrite Hy. unfold all_entries_required, oset. destruct (setting_req b y a Ja) as (I3 & G3 & S3 & B3).
          exists (upd_obj y (with_req b) a), (Ok tt). split; [reflexivity|]. split; [assumption|]. left. split; [reflexivity|]. split; [assumption|]. split; [assumption|].
          assert (SL : forall k z, read_as (upd_obj y (with_req b) a) e k z -> k = KFieldset /\ z = y).
          { intros k z Hz. unfold read_as in Hz. rewrite (gr_slot _ _ _ G3 e Le) in Hz. exact (read_one c0 a e k KFieldset z y Ja Le Hz Hy). }
          split; [|split; [|split]].
          * intros z Hz. apply SL in Hz as [Hz _]. discriminate Hz.
          * intros z Hz _. apply SL in Hz as [_ ->]. apply B3. apply (slot_lt c0 a e KFieldset y Ja Le Hy).
          * intros _. exists KFieldset, y. apply (read_fwd c0 a); assumption.
          * intros z Hz. apply SL in Hz as [Hz _]. discriminate Hz.
        + destruct (o_yielded (oget a e)) as [t|] eqn:Ey; [|apply UN; auto]. destruct (yield_of c0 a e t Ja Le Ey) as (k & y & Hy).
          assert (k = KSection) as -> by (pose proof (ACC k y Hy) as Hacc; destruct k; try discriminate; reflexivity).
          unfold mbind. rewrite (to_kind_is c0 KSection e a Ja Le Ce). unfold read_as in Hy. rewrite Hy. destruct (slot_lt c0 a e KSection y Ja Le Hy) as [Ly Vy].
          pose proof (low_grow c0 N s a (grow_trans _ _ _ _ G12 Ga) HL) as HLa. assert (y < N) as HyN by (apply (proj2 HLa e KSection); assumption).
          destruct (IH y a Ja HLa Vy) as (s3 & v & E3 & I3 & HR); [lia|]. exists s3, v. split; [exact E3|]. split; [assumption|]. destruct HR as [(-> & G3 & S3 & F3 & R3)|[(-> & N3)|HR]].
          * left. split; [reflexivity|]. split; [assumption|]. split; [assumption|].
            assert (SL : forall k z, read_as s3 e k z -> k = KSection /\ z = y).
            { intros k z Hz. unfold read_as in Hz. rewrite (gr_slot _ _ _ G3 e Le) in Hz. exact (read_one c0 a e k KSection z y Ja Le Hz Hy). }
            split; [|split; [|split]].
            -- intros z Hz. apply SL in Hz as [_ ->]. assumption.
            -- intros z Hz. apply SL in Hz as [Hz _]. discriminate Hz.
            -- intros _. exists KSection, y. apply (read_fwd c0 a); assumption.
            -- intros z Hz. apply SL in Hz as [_ ->]. apply (ready_on a s3); assumption.
          * right. left. split; [reflexivity|]. right. exists y. split; assumption.
          * right. right. exact HR. }
    destruct Q as (s3 & v & E3 & I3 & HR). exists s3, v. split; [exact E3|]. split; [assumption|]. destruct HR as [(-> & G3 & S3 & D3)|[(-> & e & He & N3)|HR]].
    - left. split; [reflexivity|]. pose proof (grow_trans _ _ _ _ G12 G3) as G123. split; [assumption|]. split; [eapply setting_trans; eassumption|].
      pose proof (proj1 (xe_kids _ _ (ex_obj _ _ (gr_ext _ _ _ G3) o (proj1 V2)) ids K2)) as K3.
      assert (o_req (oget s2 o) = b) as B2. { destruct (quiet_req b _ _ _ _ _ H3 o (proj1 V1)) as [Eb|Eb]; [rewrite Eb|]; assumption. }
      split.
      + apply (fl b s3 o ids); [destruct (S3 o (proj1 V2)) as [Eb|Eb]; [rewrite Eb|]; assumption|exact K3| |].
        * intros e y He Hy. now apply (proj1 (D3 e He)).
        * intros e y He Hy Hty. now apply (proj1 (proj2 (D3 e He))).
      + apply (ready_was s s3); try assumption. apply (rd_listed r s3 o ids K3); [intros e He Hty; now apply (D3 e He)|intros e y He Hy; now apply (D3 e He)].
    - right. left. split; [reflexivity|]. intro Hr. apply (ready_on s s2) in Hr; try assumption. clearbody s1. inversion Hr as [? l Hl Ht Hs|? L Hn HL' Ht]; subst; [|congruence]. assert (l = ids) as -> by congruence.
      destruct N3 as [(Hty & Hn)|(y & Hy & Hn)]; [destruct (Ht e He Hty) as (k & y & Hy); exact (Hn k y Hy)|apply Hn; now apply (Hs e y)].
    - right. right. exact HR.
  Qed.

  (** ** After the flags were set *)
  Lemma inside_le s o y : Inv s -> y < len s -> inside s o y -> o <= y.
  Proof.
    intros HI Hy H. induction H as [|y p Hp _ IH]; [lia|]. pose proof (oo_parent _ _ _ _ (iv_obj _ _ HI y Hy)) as Q. rewrite Hp in Q. destruct Q as [Q _]. specialize (IH ltac:(lia)). lia.
  Qed.
  Lemma parent_section s y p : Inv s -> y < len s -> o_class (oget s y) = CSection \/ o_class (oget s y) = CFieldset -> o_parent (oget s y) = Some p -> p < y /\ o_class (oget s p) = CSection.
  Proof. intros HI Hy Hc Hp. pose proof (oo_parent _ _ _ _ (iv_obj _ _ HI y Hy)) as Q. rewrite Hp in Q. destruct Hc as [Hc|Hc]; rewrite Hc in Q; exact Q. Qed.
  Lemma flags_inside b s o y : Inv s -> y < len s -> flags b s o -> inside s o y -> o_class (oget s y) = CSection -> flags b s y.
  Proof.
    intros HI Hy HF H. revert Hy. induction H as [|y p Hp _ IH]; intros Hy Hc; [assumption|]. destruct (parent_section s y p HI Hy (or_introl Hc) Hp) as [Lp Cp].
    specialize (IH ltac:(lia) Cp). pose proof (oo_home _ _ _ _ (iv_obj _ _ HI y Hy) p Hp) as Q. rewrite Hc in Q. destruct Q as (e & k & Q1 & Q2 & Q3 & Q4 & Q5). destruct k; try discriminate.
    pose proof (oo_home _ _ _ _ (iv_obj _ _ HI e ltac:(lia)) p Q4) as Q. rewrite Q3 in Q. destruct Q as (l & Q6 & Q7). inversion IH as [? l' F1 F2 F3 F4]; subst. assert (l' = l) as -> by congruence. now apply (F3 e y).
  Qed.
  Lemma flags_value b s o y : Inv s -> y < len s -> flags b s o -> inside s o y -> o_class (oget s y) = CSection \/ o_class (oget s y) = CFieldset /\ n_type (hget r (o_instr (oget s y))) = FIELDSET -> o_class (oget s o) = CSection ->
    o_req (oget s y) = b.
  Proof.
    intros HI Hy HF H [Hc|[Hc Hty]] Ho.
    - pose proof (flags_inside b s o y HI Hy HF H Hc) as F. now inversion F.
    - inversion H as [|? p Hp Hi]; subst; [congruence|]. destruct (parent_section s y p HI Hy (or_intror Hc) Hp) as [Lp Cp]. pose proof (flags_inside b s o p HI ltac:(lia) HF Hi Cp) as F.
      pose proof (oo_home _ _ _ _ (iv_obj _ _ HI y Hy) p Hp) as Q. rewrite Hc in Q. destruct Q as (e & k & Q1 & Q2 & Q3 & Q4 & Q5). destruct k; try discriminate.
      pose proof (oo_home _ _ _ _ (iv_obj _ _ HI e ltac:(lia)) p Q4) as Q. rewrite Q3 in Q. destruct Q as (l & Q6 & Q7). inversion F as [? l' F1 F2 F3 F4]; subst. assert (l' = l) as -> by congruence.
      apply (F4 e y); try assumption. destruct (oo_slot _ _ _ _ (iv_obj _ _ HI e ltac:(lia)) KFieldset y Q5) as (_ & _ & _ & Q8 & _). now rewrite <- Q8.
  Qed.

  (** new sections and fieldsets have the flag of their parent *)
  Record inherit (s s' : st) : Prop := {
    ih_len : len s <= len s';
    ih_old : forall y, y < len s -> o_class (oget s' y) = o_class (oget s y) /\ o_parent (oget s' y) = o_parent (oget s y) /\ o_req (oget s' y) = o_req (oget s y);
    ih_new : forall y p, len s <= y < len s' -> o_class (oget s' y) = CSection \/ o_class (oget s' y) = CFieldset -> o_parent (oget s' y) = Some p -> p < y -> o_req (oget s' y) = o_req (oget s' p)
  }.
  Lemma inherit_refl s : inherit s s. Proof. split; auto. lia. Qed.
  Lemma inherit_trans a b d : inherit a b -> inherit b d -> inherit a d.
  Proof.
    intros [A1 A2 A3] [B1 B2 B3]. split; [lia| |].
    - intros y Hy. destruct (A2 y Hy) as (E1 & E2 & E3). destruct (B2 y) as (F1 & F2 & F3); [lia|]. repeat split; congruence.
    - intros y p Hy Hc Hp Hlt. destruct (Nat.lt_ge_cases y (len b)) as [H|H]; [|apply (B3 y p); try assumption; lia]. destruct (B2 y H) as (F1 & F2 & F3). destruct (B2 p) as (_ & _ & G3); [lia|]. rewrite F3, G3.
      apply (A3 y p); try assumption; [lia|now rewrite <- F1|now rewrite <- F2].
  Qed.
  Lemma inherit_upd o f s : (forall x, o_class (f x) = o_class x) -> (forall x, o_parent (f x) = o_parent x) -> (forall x, o_req (f x) = o_req x) -> inherit s (upd_obj o f s).
  Proof.
    intros H1 H2 H3. assert (L : len (upd_obj o f s) = len s) by (unfold upd_obj; cbn; apply upd_length). split; [lia| |intros; lia].
    intros y Hy. rewrite oget_upd_obj. destruct (Nat.eqb_spec o y); [subst y|auto]. cbn [andb]. destruct (Nat.ltb o (len s)); auto.
  Qed.
  Lemma inherit_new cl i p s : inherit s (fst (new_obj cl i p s)).
  Proof.
    unfold new_obj, alloc. cbn [fst]. set (x := MkObj _ _ _ _ _ _ _ _ _ _ _ _ _). assert (O : forall y, y < len s -> oget (MkSt (s_ctx s) (s_objs s ++ [x])) y = oget s y) by (intros y Hy; unfold oget; cbn [s_objs]; now rewrite app_nth1).
    split; cbn [s_objs]; [rewrite app_length; lia|intros y Hy; rewrite O by assumption; auto|].
    intros y q Hy Hc Hq Hlt. rewrite app_length in Hy. cbn [length] in Hy. assert (y = len s) as -> by lia. rewrite (O q Hlt).
    assert (oget (MkSt (s_ctx s) (s_objs s ++ [x])) (len s) = x) as E by (unfold oget; cbn [s_objs]; rewrite app_nth2, Nat.sub_diag by lia; reflexivity). rewrite E in *. subst x. cbn in *. rewrite Hq. destruct Hc as [-> | ->]; reflexivity.
  Qed.
  Lemma inherit_call c s : ~ sets_flags c -> inherit s (fst (run_call c s)).
  Proof.
    intro H. apply (fr_call inherit (fun _ => True) False).
    - apply inherit_refl.
    - apply inherit_trans.
    - apply inherit_new.
    - intros o f s0 [M1 M2 M3 M4 M5]. now apply inherit_upd.
    - intros s0 h. split; cbn [s_objs]; auto. lia.
    - intros. now apply inherit_upd.
    - contradiction.
    - destruct c; cbn in *; auto; try (now destruct (H I)); trivial.
  Qed.
  Lemma inherit_session s s' : Inv s -> goes_on_plainly s s' -> inherit s s' /\ Inv s' /\ ext s s'.
  Proof.
    intros HI H. induction H as [s|s c s' H1 H2 H3 _ IH]; [split; [apply inherit_refl|split; [assumption|apply ext_refl]]|].
    destruct (ok_call c0 HD c s HI H1 H2) as [G1 G2]. destruct (IH G1) as (A & B & C). split; [exact (inherit_trans _ _ _ (inherit_call c s H3) A)|]. split; [assumption|eapply ext_trans; eassumption].
  Qed.
  Lemma flag_of s s' o y : Inv s -> flags true s o -> valid s o CSection -> goes_on_plainly s s' -> y < len s' -> inside s' o y ->
    o_class (oget s' y) = CSection \/ o_class (oget s' y) = CFieldset /\ (n_type (hget r (o_instr (oget s' y))) = FIELDSET \/ len s <= y) -> o_req (oget s' y) = true.
  Proof.
    intros HI HF V HG. destruct (inherit_session s s' HI HG) as (A & HI' & X).
    assert (BACK : forall y, y < len s -> inside s' o y -> inside s o y).
    { intros z Hz H. induction H as [|z p Hp _ IH]; [constructor|]. destruct (ih_old _ _ A z Hz) as (_ & E & _). rewrite E in Hp. apply (in_up s o z p Hp). apply IH.
      pose proof (oo_parent _ _ _ _ (iv_obj _ _ HI z Hz)) as Q. rewrite Hp in Q. lia. }
    intros Hy H. revert Hy. induction H as [|y p Hp Hin IH]; intros Hy Hc.
    - destruct (ih_old _ _ A o (proj1 V)) as (E1 & E2 & E3). rewrite E3. now inversion HF.
    - destruct (Nat.lt_ge_cases y (len s)) as [Hlt|Hge].
      + destruct (ih_old _ _ A y Hlt) as (E1 & E2 & E3). rewrite E3. apply (flags_value true s o y); try assumption; [apply BACK; [assumption|now apply (in_up s' o y p)]| |apply V].
        rewrite E1, (instr_stays s s' y X Hlt) in Hc. destruct Hc as [Hc|[Hc [Hty|Hge]]]; [now left|right; auto|lia].
      + assert (Hc' : o_class (oget s' y) = CSection \/ o_class (oget s' y) = CFieldset) by tauto. destruct (parent_section s' y p HI' Hy Hc' Hp) as [Lp Cp].
        rewrite (ih_new _ _ A y p); try assumption; [|lia]. apply IH; [lia|now left].
  Qed.

  (** a query for nothing *)
  Lemma ready_result o b s : Inv s -> valid s o CSection -> exists s' v, all_elements_required o b s = (s', v) /\ Inv s' /\
    ((v = Ok tt /\ ready r s o /\ ext s s' /\ flags b s' o) \/ (v = Raise AttributeError /\ ~ ready r s o) \/ (v = Raise Fuel /\ exists j, ~ ends r j)).
  Proof.
    intros HI V. unfold all_elements_required, mbind, ofuel. assert (HL : low (len s) s). { split; [lia|]. intros a k y Ha Hy. apply (slot_lt c0 s a k y HI Ha Hy). }
    destruct (require_is b (len s) (S (len s)) o s HI HL V) as (s' & v & E & HI' & H); [lia|]. exists s', v. split; [exact E|]. split; [assumption|]. destruct H as [(-> & G & S & F & R)|[(-> & N)|H]]; [left|right; left|right; right]; auto.
    split; [reflexivity|]. split; [assumption|]. split; [apply (gr_ext _ _ _ G)|assumption].
  Qed.
End Require.
