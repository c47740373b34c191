(** AnalyzerCopies: the copy tables, resolution marks and fresh nodes the analysis leaves. *)
From Verif Require Import Base Types Scan Analyzer TokenStep ScanProofs ScanFacts StepProofs HeapFacts AnalyzerInv
  AnalyzerLoop StepChange SpecText AnalyzerText AnalyzerTiles SpecTree AnalyzerTree AnalyzerBlocks.

(** an instruction nothing was resolved or computed for *)
Definition pristine (n : node) : Prop :=
  n_mirror n = None /\ n_extend n = None /\ n_cvalue n = None /\ n_ccomment n = None /\ n_cels n = None /\
  n_centries n = None /\ n_citems n = None /\
  n_copy n = opt_is (n_template n) /\
  (n_template n <> None -> ncls n = CElem \/ ncls n = CSec) /\
  (n_deep_copy n = true -> ncls n = CSec /\ n_template n <> None).

Lemma pristine_stat x y : stat x = stat y -> pristine x -> pristine y.
Proof.
  unfold stat, pristine. intros H (H1 & H2 & H3 & H4 & H5 & H6 & H7 & H8 & H9 & H10).
  assert (n_template y = n_template x) as Ht by congruence. assert (ncls y = ncls x) as Hc by congruence.
  assert (n_deep_copy y = n_deep_copy x) as Hd by congruence. rewrite Ht, Hc, Hd.
  repeat split; try congruence; try assumption; now apply H10.
Qed.

Definition tpl_sec (t : text) (n : node) : bool :=
  is_cls CSec n && match n_template n with Some u => text_eqb t u | None => false end.
Definition tpl_elem (t : text) (n : node) : bool :=
  is_cls CElem n && match n_template n with Some u => text_eqb t u | None => false end.
Lemma tpl_sec_stat t x y : stat x = stat y -> tpl_sec t x = tpl_sec t y.
Proof. intro H. unfold tpl_sec, is_cls. now rewrite (stat_cls _ _ H), (stat_template _ _ H). Qed.
Lemma tpl_elem_stat t x y : stat x = stat y -> tpl_elem t x = tpl_elem t y.
Proof. intro H. unfold tpl_elem, is_cls. now rewrite (stat_cls _ _ H), (stat_template _ _ H). Qed.

(** the table holds, per template text, the numbers of the copies in order *)
Definition collects (f : text -> node -> bool) (h : heap) (tbl : list (text * list nat)) : Prop :=
  NoDup (map fst tbl) /\ (forall t l, In (t, l) tbl -> l <> []) /\
  forall t, olist (assoc t tbl) = ids (f t) h.

(** [a] is a proper ancestor of [i] *)
Inductive above (h : heap) : nat -> nat -> Prop :=
| above_parent i p : n_parent (hget h i) = Some p -> above h p i
| above_up i p a : n_parent (hget h i) = Some p -> above h a p -> above h a i.

(** marked sections: the ones with a section copy below *)
Definition marked (h : heap) : Prop :=
  forall a, a < length h -> (n_deep_resolve (hget h a) = true <->
    ncls (hget h a) = CSec /\ exists i, i < length h /\ above h a i /\ ncls (hget h i) = CSec /\ n_template (hget h i) <> None).

Record KInv (st : ast) : Prop := {
  k_pristine : forall i, i < length (a_heap st) -> pristine (hget (a_heap st) i);
  k_cs : collects tpl_sec (a_heap st) (a_cs st);
  k_cn : collects tpl_elem (a_heap st) (a_cn st);
  k_deep : marked (a_heap st);
  k_line : forall i, 0 < i < length (a_heap st) -> n_line (hget (a_heap st) i) < a_line st;
  k_lines : forall i j, 0 < i < j -> j < length (a_heap st) -> n_line (hget (a_heap st) i) < n_line (hget (a_heap st) j)
}.

Lemma assoc_upd_eq {A} k (f : A -> A) v l :
  assoc k (assoc_upd k f v l) = Some (match assoc k l with Some w => f w | None => v end).
Proof.
  induction l as [|[k' w] l IH]; cbn.
  - now rewrite (proj2 (text_eqb_eq k k) eq_refl).
  - destruct (text_eqb k k') eqn:E; cbn; rewrite E; auto.
Qed.
Lemma assoc_upd_neq {A} k k2 (f : A -> A) v l : k <> k2 -> assoc k2 (assoc_upd k f v l) = assoc k2 l.
Proof.
  intro Hne. induction l as [|[k' w] l IH]; cbn.
  - destruct (text_eqb k2 k) eqn:E; [apply text_eqb_eq in E; congruence|reflexivity].
  - destruct (text_eqb k k') eqn:E; cbn.
    + apply text_eqb_eq in E. subst k'. destruct (text_eqb k2 k) eqn:E2; [apply text_eqb_eq in E2; congruence|reflexivity].
    + now rewrite IH.
Qed.
Lemma assoc_upd_fst {A} k (f : A -> A) v l :
  map fst (assoc_upd k f v l) = if opt_is (assoc k l) then map fst l else map fst l ++ [k].
Proof.
  induction l as [|[k' w] l IH]; cbn; [reflexivity|]. destruct (text_eqb k k') eqn:E; cbn.
  - reflexivity.
  - rewrite IH. destruct (opt_is (assoc k l)); reflexivity.
Qed.
Lemma assoc_in {A} k (l : list (text * A)) v : assoc k l = Some v -> In (k, v) l.
Proof.
  induction l as [|[k' w] l IH]; cbn; [discriminate|]. destruct (text_eqb k k') eqn:E.
  - apply text_eqb_eq in E. intros [= ->]. left. congruence.
  - auto.
Qed.
Lemma assoc_none {A} k (l : list (text * A)) : assoc k l = None <-> ~ In k (map fst l).
Proof.
  induction l as [|[k' w] l IH]; cbn; [tauto|]. destruct (text_eqb k k') eqn:E.
  - apply text_eqb_eq in E. subst k'. split; [discriminate|intuition].
  - rewrite IH. assert (k' <> k) by (intro; subst; rewrite (proj2 (text_eqb_eq k k) eq_refl) in E; discriminate). tauto.
Qed.
Lemma in_assoc {A} k (l : list (text * A)) v : NoDup (map fst l) -> In (k, v) l -> assoc k l = Some v.
Proof.
  induction l as [|[k' w] l IH]; cbn; [tauto|]. intros Hd [H|H].
  - injection H as -> ->. now rewrite (proj2 (text_eqb_eq k k) eq_refl).
  - inversion_clear Hd. destruct (text_eqb k k') eqn:E; [|auto].
    apply text_eqb_eq in E. subst k'. exfalso. apply H0. change k with (fst (k, v)). now apply in_map.
Qed.
Lemma assoc_upd_in {A} k (f : A -> A) v l k2 w : In (k2, w) (assoc_upd k f v l) ->
  In (k2, w) l \/ k2 = k /\ (w = v \/ exists w0, w = f w0).
Proof.
  induction l as [|[k' x] l IH]; cbn.
  - intros [H|[]]. injection H as <- <-. auto.
  - destruct (text_eqb k k') eqn:E; cbn.
    + apply text_eqb_eq in E. subst k'. intros [H|H]; [|auto]. injection H as <- <-. right. split; [reflexivity|]. right. eauto.
    + intros [H|H]; [auto|]. destruct (IH H) as [G|G]; auto.
Qed.

Lemma NoDup_snoc {A} (l : list A) x : NoDup l -> ~ In x l -> NoDup (l ++ [x]).
Proof.
  induction 1 as [|y l Hy Hd IH]; cbn; intro Hx; [constructor; [tauto|constructor]|].
  constructor; [|apply IH; tauto]. rewrite in_app_iff. cbn. intros [H|[H|[]]]; [contradiction|]. subst. tauto.
Qed.

Lemma collects_stat f h h' tbl : (forall t x y, stat x = stat y -> f t x = f t y) ->
  map stat h = map stat h' -> collects f h tbl -> collects f h' tbl.
Proof.
  intros Hf Hs (H1 & H2 & H3). split; [assumption|]. split; [assumption|]. intro t. rewrite H3. apply ids_stat; auto.
Qed.
Lemma collects_skip f h n tbl : (forall t, f t n = false) -> collects f h tbl -> collects f (h ++ [n]) tbl.
Proof.
  intros Hf (H1 & H2 & H3). split; [assumption|]. split; [assumption|]. intro t. rewrite ids_app, Hf, app_nil_r. apply H3.
Qed.
Lemma collects_add f h n t tbl : f t n = true -> (forall u, u <> t -> f u n = false) ->
  collects f h tbl -> collects f (h ++ [n]) (add_target t (length h) tbl).
Proof.
  intros Ht Hu (H1 & H2 & H3). unfold add_target. split; [|split].
  - rewrite assoc_upd_fst. destruct (assoc t tbl) eqn:E; [assumption|]. cbn. apply assoc_none in E.
    now apply NoDup_snoc.
  - intros u l Hin. apply assoc_upd_in in Hin as [Hin|[-> [->|[w ->]]]]; [eauto|discriminate|].
    destruct w; discriminate.
  - intro u. rewrite ids_app. destruct (list_eq_dec N.eq_dec u t) as [->|Hne].
    + rewrite assoc_upd_eq, Ht. rewrite <- H3. destruct (assoc t tbl); reflexivity.
    + rewrite assoc_upd_neq, Hu, app_nil_r by auto. apply H3.
Qed.

(** * Ancestors *)

Lemma above_lt h a i : SInv h -> i < length h -> above h a i -> a < i.
Proof.
  intros HS Hi H. induction H as [i p Hp|i p a Hp Ha IH].
  - eapply SInv_parent_lt; eassumption.
  - pose proof (SInv_parent_lt _ _ _ HS Hi Hp). specialize (IH ltac:(lia)). lia.
Qed.
Lemma above_stat h h' a i : map stat h = map stat h' -> above h a i -> above h' a i.
Proof.
  intros Hs H. induction H as [i p Hp|i p a Hp Ha IH]; [apply above_parent|eapply above_up; [|exact IH]];
    now rewrite <- (stat_parent _ _ (map_stat_get _ _ i Hs)).
Qed.
Lemma above_app h n a i : SInv h -> i < length h -> above (h ++ [n]) a i <-> above h a i.
Proof.
  intros HS Hi. split; intro H.
  - revert Hi. induction H as [i p Hp|i p a Hp Ha IH]; intro Hi; rewrite hget_app_l in Hp by assumption.
    + now apply above_parent.
    + eapply above_up; [exact Hp|]. apply IH. pose proof (SInv_parent_lt _ _ _ HS Hi Hp). lia.
  - revert Hi. induction H as [i p Hp|i p a Hp Ha IH]; intro Hi.
    + apply above_parent. now rewrite hget_app_l.
    + eapply above_up; [rewrite hget_app_l by assumption; exact Hp|]. apply IH.
      pose proof (SInv_parent_lt _ _ _ HS Hi Hp). lia.
Qed.
Lemma above_inv h a i p : n_parent (hget h i) = Some p -> above h a i <-> a = p \/ above h a p.
Proof.
  intro Hp. split.
  - intro H. inversion H; subst; rewrite Hp in *; [left|right]; congruence.
  - intros [->|H]; [now apply above_parent|eapply above_up; eassumption].
Qed.
Lemma sec_like_above h a i : SInv h -> i < length h -> sec_like (hget h i) -> above h a i -> sec_like (hget h a).
Proof.
  intros HS Hi Hsec H. revert Hi Hsec.
  assert (forall i p, i < length h -> sec_like (hget h i) -> n_parent (hget h i) = Some p -> p < length h /\ sec_like (hget h p)) as Hstep.
  { intros j p Hj Hs Hp. pose proof (SInv_parent_lt _ _ _ HS Hj Hp). split; [lia|].
    destruct (s_node _ HS j ltac:(lia)) as (q & Hq & _ & Hpl). rewrite Hq in Hp. injection Hp as ->.
    unfold placed in Hpl. destruct Hs as [Hs|Hs]; rewrite Hs in Hpl; [contradiction|apply Hpl]. }
  induction H as [i p Hp|i p a Hp Ha IH]; intros Hi Hsec; destruct (Hstep _ _ Hi Hsec Hp); auto.
Qed.
Lemma cls_doc h i : SInv h -> i < length h -> ncls (hget h i) = CDoc -> i = 0.
Proof.
  intros HS Hi Hc. destruct (Nat.eq_dec i 0) as [|Hne]; [assumption|].
  destruct (s_node _ HS i ltac:(lia)) as (q & _ & _ & Hpl). unfold placed in Hpl. now rewrite Hc in Hpl.
Qed.

Lemma type_doc n : itype_eqb (n_type n) DOCUMENT = true <-> ncls n = CDoc.
Proof. unfold ncls. destruct (n_type n); cbn; split; congruence. Qed.

Lemma mark_deep_marks fuel : forall h p h', SInv h -> p < length h -> mark_deep fuel h p = Some h' ->
  forall i, n_deep_resolve (hget h' i) = true <->
    n_deep_resolve (hget h i) = true \/ ncls (hget h i) <> CDoc /\ (i = p \/ above h i p).
Proof.
  induction fuel as [|f IH]; intros h p h' HS Hp; cbn [mark_deep]; [discriminate|].
  destruct (itype_eqb (n_type (hget h p)) DOCUMENT) eqn:Et.
  - intros [= <-] i. split; [auto|]. intros [H|[Hne [->|Ha]]]; [assumption|now apply type_doc in Et|].
    apply type_doc in Et. apply cls_doc in Et; [|assumption|assumption]. subst p.
    apply above_lt in Ha; [lia|assumption|assumption].
  - destruct (n_parent (hget h p)) as [q|] eqn:Eq; [|discriminate]. intros H i.
    pose proof (SInv_parent_lt _ _ _ HS Hp Eq) as Hq.
    assert (map stat (hupd h p (set_deep_resolve true)) = map stat h) as Hst.
    { apply map_stat_upd. intro; reflexivity. }
    apply IH with (i := i) in H.
    + rewrite H. clear H. rewrite (above_inv _ _ _ _ Eq).
      assert (ncls (hget (hupd h p (set_deep_resolve true)) i) = ncls (hget h i)) as Hc.
      { apply stat_cls. now apply map_stat_get. }
      rewrite Hc. assert (above (hupd h p (set_deep_resolve true)) i q <-> above h i q) as Ha.
      { split; apply above_stat; congruence. }
      rewrite Ha. unfold hupd. rewrite hget_upd by assumption. destruct (Nat.eqb_spec p i) as [<-|Hne].
      * cbn. split; [|intros _; now left]. intros _. right. split; [|now left]. intro Hd.
        apply type_doc in Hd. congruence.
      * split; (intros [G|[G1 [G2|G2]]]; [now left|right; split; [assumption|]..]); try tauto. congruence.
    + eapply SInv_stat; [symmetry; exact Hst|assumption].
    + unfold hupd. rewrite upd_length. lia.
Qed.

(** * What a step does to tables and marks *)

Inductive tchange (st st' : ast) : Prop :=
| tc_same :
    map stat (a_heap st') = map stat (a_heap st) ->
    (forall i, n_deep_resolve (hget (a_heap st') i) = n_deep_resolve (hget (a_heap st) i)) ->
    a_cs st' = a_cs st -> a_cn st' = a_cn st -> a_line st <= a_line st' -> tchange st st'
| tc_new n p :
    n_line n = a_line st -> n_parent n = Some p -> p < length (a_heap st) -> pristine n -> n_deep_resolve n = false ->
    map stat (a_heap st') = map stat (a_heap st ++ [n]) -> a_line st < a_line st' ->
    ((forall i, n_deep_resolve (hget (a_heap st') i) = n_deep_resolve (hget (a_heap st ++ [n]) i)) /\
       n_template n = None /\ a_cs st' = a_cs st /\ a_cn st' = a_cn st \/
     (forall i, n_deep_resolve (hget (a_heap st') i) = n_deep_resolve (hget (a_heap st ++ [n]) i)) /\
       (exists t, n_template n = Some t /\ ncls n = CElem /\ a_cs st' = a_cs st /\
                  a_cn st' = add_target t (length (a_heap st)) (a_cn st)) \/
     (forall i, n_deep_resolve (hget (a_heap st') i) = true <->
        n_deep_resolve (hget (a_heap st ++ [n]) i) = true \/
        ncls (hget (a_heap st ++ [n]) i) <> CDoc /\ above (a_heap st ++ [n]) i (length (a_heap st))) /\
       (exists t, n_template n = Some t /\ ncls n = CSec /\ sec_like (hget (a_heap st) p) /\
                  a_cs st' = add_target t (length (a_heap st)) (a_cs st) /\ a_cn st' = a_cn st)) ->
    tchange st st'.

Lemma deep_upd h p g : (forall x, n_deep_resolve (g x) = n_deep_resolve x) ->
  forall i, n_deep_resolve (hget (upd h p g) i) = n_deep_resolve (hget h i).
Proof.
  intros Hg i. destruct (Nat.eq_dec p i) as [->|Hne]; [|now rewrite hget_upd_neq].
  destruct (le_lt_dec (length h) i) as [Hle|Hlt].
  - unfold hget. rewrite !nth_overflow; [reflexivity|assumption|now rewrite upd_length].
  - rewrite hget_upd_eq by assumption. apply Hg.
Qed.
Lemma deep_item id x : n_deep_resolve (add_item id x) = n_deep_resolve x.
Proof. unfold add_item. destruct (n_type x); reflexivity. Qed.
Lemma deep_entry id x : n_deep_resolve (add_entry id x) = n_deep_resolve x.
Proof. unfold add_entry. destruct (n_type x); reflexivity. Qed.
Lemma deep_cont c x : n_deep_resolve (cont_upd c x) = n_deep_resolve x.
Proof. unfold cont_upd. destruct (n_conts x); [reflexivity|]. destruct (itype_eqb (n_type x) EMPTY_ELEMENT); reflexivity. Qed.

Ltac pristine_tac := unfold pristine; cbn; repeat split; auto; try discriminate; try congruence.

Theorem step_tchange inp st st' :
  AInv st -> a_index st <= length inp -> step inp st = SOk st' -> tchange st st'.
Proof.
  intros HI Hix. pose proof HI as [HS _ _ _ _ _ _ _ _].
  rewrite step_tstep by assumption. unfold tstep.
  assert (forall i l mk, fail_at inp st i l mk = SOk st' -> False) as Hfail.
  { intros i l mk. destruct (fail_at_err inp st i l mk) as (x & ls & lc & _ & ->). discriminate. }
  destruct (scan _ _) as [[t e]|] eqn:Hs; [|intro H; now apply Hfail in H].
  intro H. destruct (scan_ok inp _ _ _ Hix Hs) as (Hie & Hle & Htok).
  assert (a_lsec st < length (a_heap st)) as Hsec by apply HI.
  destruct t as [p|op v|op v|op v|op v|op k|op k tp|k op v|k op v|k op tp]; cbn [tstep_tok] in H.
  - injection H as <-. apply tc_same; cbn; auto.
  - destruct (a_lce st) as [c|] eqn:El; [|now apply Hfail in H]. injection H as <-.
    apply tc_same; cbn; auto; [apply map_stat_upd, benign_cont|intro; apply deep_upd, deep_cont].
  - destruct (a_lce st) as [c|] eqn:El; [|now apply Hfail in H]. injection H as <-.
    apply tc_same; cbn; auto; [apply map_stat_upd, benign_cont|intro; apply deep_upd, deep_cont].
  - injection H as <-. apply tc_same; cbn; auto.
  - destruct (a_lnse st) as [l|] eqn:El; [|now apply Hfail in H].
    destruct (takes_items (n_type (hget (a_heap st) l))) eqn:Et; [|now apply Hfail in H].
    injection H as <-. pose proof (i_lnse _ _ _ _ _ HI) as Hl. rewrite El in Hl.
    eapply tc_new with (n := item_node inp st e op v l); try reflexivity; cbn; try lia.
    + pristine_tac.
    + apply map_stat_upd, benign_add_item.
    + left. repeat split. intro; apply deep_upd, deep_item.
  - destruct (find_closing (sub inp op) (sub inp k) e (skipn e inp)) as [[stop [[o2 k2] e2]]|] eqn:Ec.
    + fold (ml_part inp e (a_line st) stop) in H.
      destruct (ml_part inp e (a_line st) stop) as [[[lines line3] index3]|] eqn:Em; [|discriminate].
      pose proof Hle as [Hlen _]. destruct (closing_bounds _ _ _ _ _ _ _ _ Hlen Ec) as (B1 & B2 & B3 & B4 & B5).
      destruct (ml_part_spec _ _ _ _ _ _ _ Em B1 B4 B5 Hle) as (_ & _ & -> & _).
      injection H as <-. unfold hupd. rewrite add_element_last by assumption.
      match goal with |- context [add_element (_ ++ [?m]) _ _] =>
        apply tc_new with (n := m) (p := a_lsec st); cbn [a_heap a_line a_cs a_cn] end.
      * reflexivity.
      * reflexivity.
      * assumption.
      * pristine_tac.
      * reflexivity.
      * apply map_stat_upd. intro; reflexivity.
      * lia.
      * left. split; [intro; apply deep_upd; reflexivity|]. repeat split.
    + match type of H with fail_at inp ?s ?i ?l ?mk = _ =>
        destruct (fail_at_err inp s i l mk) as (x & ls & lc & _ & E) end.
      rewrite E in H. discriminate.
  - fold (width op) in H. destruct (section_parent st (width op)) as [[p|]|] eqn:Ep;
      [|discriminate|now apply Hfail in H].
    assert (p < length (a_heap st) /\ sec_like (hget (a_heap st) p) /\
            SInv (add_element (a_heap st ++ [section_node inp st e op k tp p]) p (length (a_heap st)))) as (Hp & Hpl & HS1).
    { destruct Htok as (Hop & _). unfold op_ok, span_in in Hop.
      destruct (le_lt_dec (width op) (a_depth st + 1)) as [Hd|Hgt]; [|apply section_parent_skip in Hgt; congruence].
      destruct (section_parent_spec st (width op) HI) as (q & Hq & Hcl & Hod & Hsl & Hlt); [unfold width; lia|assumption|].
      rewrite Ep in Hq. injection Hq as <-. split; [assumption|]. split; [assumption|].
      destruct (section_node_facts inp st e op k tp p) as (F1 & F2 & F3 & F4 & F5).
      assert (Inv (add_element (a_heap st ++ [section_node inp st e op k tp p]) p (length (a_heap st)))
                  (length (a_heap st)) (width op) None None) as HN.
      { rewrite <- F5. eapply Inv_new_section; eauto. }
      apply HN. }
    destruct tp as [[o ts]|].
    + destruct (mark_deep _ _ _) as [h2|] eqn:Em; [|discriminate]. injection H as <-.
      eapply tc_new with (n := section_node inp st e op k (Some (o, ts)) p); try reflexivity; cbn [a_heap a_line a_cs a_cn].
      * assumption.
      * pristine_tac.
      * apply mark_deep_core, map_core_stat in Em. rewrite Em. apply map_stat_upd. intro; reflexivity.
      * lia.
      * right. right. split.
        -- intro i. set (n := section_node inp st e op k (Some (o, ts)) p) in *.
           set (h1 := add_element (a_heap st ++ [n]) p (length (a_heap st))) in *.
           assert (map stat h1 = map stat (a_heap st ++ [n])) as Hst by (apply map_stat_upd; intro; reflexivity).
           assert (p < length h1) as Hph by (rewrite (map_stat_length _ _ Hst), app_length; lia).
           rewrite (mark_deep_marks _ _ _ _ HS1 Hph Em i).
           rewrite (stat_cls _ _ (map_stat_get _ _ i Hst)).
           assert (n_parent (hget (a_heap st ++ [n]) (length (a_heap st))) = Some p) as Hpar by now rewrite hget_app_r.
           rewrite (above_inv _ _ _ _ Hpar).
           assert (above h1 i p <-> above (a_heap st ++ [n]) i p) as -> by (split; apply above_stat; congruence).
           assert (n_deep_resolve (hget h1 i) = n_deep_resolve (hget (a_heap st ++ [n]) i)) as -> by (apply deep_upd; reflexivity).
           reflexivity.
        -- eexists. repeat split; assumption.
    + injection H as <-. eapply tc_new with (n := section_node inp st e op k None p); try reflexivity; cbn [a_heap a_line a_cs a_cn].
      * assumption.
      * pristine_tac.
      * apply map_stat_upd. intro; reflexivity.
      * lia.
      * left. repeat split. intro; apply deep_upd; reflexivity.
  - injection H as <-. eapply tc_new with (n := field_node inp st e k op v); try reflexivity; cbn [a_heap a_line a_cs a_cn].
    + assumption.
    + pristine_tac.
    + apply map_stat_upd. intro; reflexivity.
    + lia.
    + left. repeat split. intro; apply deep_upd; reflexivity.
  - destruct (a_lnse st) as [l|] eqn:El; [|now apply Hfail in H].
    destruct (takes_entries (n_type (hget (a_heap st) l))) eqn:Et; [|now apply Hfail in H].
    injection H as <-. pose proof (i_lnse _ _ _ _ _ HI) as Hl. rewrite El in Hl.
    eapply tc_new with (n := entry_node inp st e k op v l); try reflexivity; cbn; try lia.
    + pristine_tac.
    + apply map_stat_upd, benign_add_entry.
    + left. repeat split. intro; apply deep_upd, deep_entry.
  - injection H as <-. eapply tc_new with (n := copy_node inp st e k op tp); try reflexivity; cbn [a_heap a_line a_cs a_cn].
    + assumption.
    + pristine_tac.
    + apply map_stat_upd. intro; reflexivity.
    + lia.
    + right. left. split; [intro; apply deep_upd; reflexivity|]. eexists. repeat split.
Qed.

Lemma NoDup_nil' {A} : NoDup (@nil A). Proof. constructor. Qed.

Lemma step_KInv st st' : AInv st -> AInv st' -> KInv st -> tchange st st' -> KInv st'.
Proof.
  intros [HS _ _ _ _ _ _ _ _] [HS' _ _ _ _ _ _ _ _] [K1 K2 K3 K4 K5 K6] [Hst Hd Hcs Hcn Hl|n p Hln Hpar Hp Hpr Hdr Hst Hl Hcase].
  - pose proof (map_stat_length _ _ Hst) as Hlen.
    assert (forall i, stat (hget (a_heap st') i) = stat (hget (a_heap st) i)) as Hg by (intro; now apply map_stat_get).
    constructor; rewrite ?Hlen, ?Hcs, ?Hcn.
    + intros i Hi. eapply pristine_stat; [symmetry; apply Hg|auto].
    + eapply collects_stat; [apply tpl_sec_stat|symmetry; exact Hst|assumption].
    + eapply collects_stat; [apply tpl_elem_stat|symmetry; exact Hst|assumption].
    + intros a Ha. rewrite Hlen in Ha. rewrite Hd, (K4 a Ha), (stat_cls _ _ (Hg a)). split.
      * intros (H1 & i & H2 & H3 & H4 & H5). split; [assumption|]. exists i. rewrite Hlen, (stat_cls _ _ (Hg i)), (stat_template _ _ (Hg i)).
        repeat split; try assumption. eapply above_stat; [symmetry; exact Hst|assumption].
      * intros (H1 & i & H2 & H3 & H4 & H5). split; [assumption|]. exists i. rewrite Hlen, (stat_cls _ _ (Hg i)), (stat_template _ _ (Hg i)) in *.
        repeat split; try assumption. eapply above_stat; [exact Hst|assumption].
    + intros i Hi. rewrite (stat_line _ _ (Hg i)). specialize (K5 i Hi). lia.
    + intros i j Hij Hj. rewrite (stat_line _ _ (Hg i)), (stat_line _ _ (Hg j)). auto.
  - pose proof (map_stat_length _ _ Hst) as Hlen. rewrite app_length in Hlen. cbn [length] in Hlen.
    set (h := a_heap st) in *. set (h' := a_heap st') in *.
    assert (forall i, i < length h -> stat (hget h' i) = stat (hget h i)) as Hg.
    { intros i Hi. rewrite (map_stat_get _ _ i Hst), hget_app_l by assumption. reflexivity. }
    assert (stat (hget h' (length h)) = stat n) as Hn by (rewrite (map_stat_get _ _ (length h) Hst), hget_app_r; reflexivity).
    assert (forall i, i < length h' -> i < length h \/ i = length h) as Hlt by (intros; lia).
    assert (collects tpl_sec h' (a_cs st') /\ collects tpl_elem h' (a_cn st')) as [C1 C2].
    { assert (forall t n, n_template n = None -> tpl_sec t n = false /\ tpl_elem t n = false) as Hno.
      { intros t m Hm. unfold tpl_sec, tpl_elem. rewrite Hm. now rewrite !andb_false_r. }
      assert (forall t, text_eqb t t = true) as Heq by (intro; now apply text_eqb_eq).
      assert (forall t u, u <> t -> text_eqb u t = false) as Hne.
      { intros t u Hu. destruct (text_eqb u t) eqn:E; [apply text_eqb_eq in E; contradiction|reflexivity]. }
      split; (eapply collects_stat; [first [apply tpl_sec_stat|apply tpl_elem_stat]|symmetry; exact Hst|]);
        destruct Hcase as [(_ & Ht & E1 & E2)|[(_ & t & Ht & Hc & E1 & E2)|(_ & t & Ht & Hc & _ & E1 & E2)]];
        rewrite ?E1, ?E2.
      - apply collects_skip; [|assumption]. intro t. now apply Hno.
      - apply collects_skip; [|assumption]. intro u. unfold tpl_sec, is_cls. now rewrite Hc.
      - apply collects_add; [| |assumption]; unfold tpl_sec, is_cls; rewrite Hc, Ht; cbn; auto.
      - apply collects_skip; [|assumption]. intro t. now apply Hno.
      - apply collects_add; [| |assumption]; unfold tpl_elem, is_cls; rewrite Hc, Ht; cbn; auto.
      - apply collects_skip; [|assumption]. intro u. unfold tpl_elem, is_cls. now rewrite Hc. }
    constructor; fold h'; try assumption.
    + intros i Hi. destruct (Hlt i Hi) as [Hi'| ->].
      * eapply pristine_stat; [symmetry; now apply Hg|auto].
      * eapply pristine_stat; [symmetry; exact Hn|assumption].
    + (* marks *)
      assert (forall a i, i < length h -> above h' a i <-> above h a i) as Hab.
      { intros a i Hi. rewrite <- (above_app h n a i HS Hi). split; apply above_stat; congruence. }
      assert (forall a, above h' a (length h) <-> a = p \/ above h a p) as Habn.
      { intro a. rewrite (above_inv h' a (length h) p), Hab by (try assumption; now rewrite (stat_parent _ _ Hn)). reflexivity. }
      assert (forall a, above h' a (length h) -> a < length h) as Hal.
      { intros a Ha. apply (above_lt _ _ _ HS') in Ha; lia. }
      assert (forall a, above (h ++ [n]) a (length h) <-> above h' a (length h)) as Habx.
      { intro a. split; apply above_stat; congruence. }
      (* the old description, read in the new heap *)
      assert (forall a, a < length h -> n_deep_resolve (hget h a) = true <->
                ncls (hget h' a) = CSec /\ exists i, i < length h /\ above h' a i /\ ncls (hget h' i) = CSec /\ n_template (hget h' i) <> None) as Hold.
      { intros a Ha. rewrite (K4 a Ha), (stat_cls _ _ (Hg a Ha)). split; intros (H1 & i & H2 & H3 & H4 & H5); (split; [assumption|]);
          exists i; rewrite (Hab a i H2) in *; rewrite (stat_cls _ _ (Hg i H2)), (stat_template _ _ (Hg i H2)) in *; auto. }
      assert (forall i, n_deep_resolve (hget (h ++ [n]) i) = (if Nat.ltb i (length h) then n_deep_resolve (hget h i) else false)) as Hdn.
      { intro i. destruct (Nat.ltb_spec i (length h)); [now rewrite hget_app_l|].
        destruct (Nat.eq_dec i (length h)) as [->|]; [now rewrite hget_app_r|].
        unfold hget. rewrite nth_overflow; [reflexivity|rewrite app_length; cbn; lia]. }
      assert (forall a i, i < length h' -> above h' a i -> a < length h) as Hax.
      { intros a i Hi Ha. apply (above_lt _ _ _ HS') in Ha; lia. }
      intros a Ha.
      destruct Hcase as [(Hd & Ht & _)|[(Hd & t & Ht & Hc & _)|(Hd & t & Ht & Hc & Hsl & _)]]; rewrite Hd, Hdn.
      1,2: (destruct (Nat.ltb_spec a (length h)) as [Ha'|Ha'];
        [rewrite (Hold a Ha'); split; (intros (H1 & i & H2 & H3 & H4 & H5); split; [assumption|]; exists i; repeat split; try assumption; try lia);
         destruct (Hlt i H2) as [|E]; [assumption|]; subst i; rewrite ?(stat_template _ _ Hn), ?(stat_cls _ _ Hn) in *; congruence
        |split; [discriminate|]; intros (H1 & i & H2 & H3 & H4 & H5); specialize (Hax _ _ H2 H3); lia]).
      rewrite Habx. destruct (Nat.ltb_spec a (length h)) as [Ha'|Ha'].
      * rewrite (Hold a Ha'). rewrite hget_app_l by assumption. rewrite <- (stat_cls _ _ (Hg a Ha')). split.
        -- intros [(H1 & i & H2 & H3 & H4 & H5)|[H1 H2]].
           ++ split; [assumption|]. exists i. repeat split; try assumption. lia.
           ++ assert (sec_like (hget h' a)) as Hsa.
              { apply Habn in H2 as [->|H2]; (eapply sec_like_stat; [symmetry; apply Hg; assumption|]); [assumption|].
                apply (sec_like_above _ _ _ HS Hp Hsl H2). }
              destruct Hsa as [Hsa|Hsa]; [contradiction|]. split; [assumption|]. exists (length h).
              rewrite (stat_template _ _ Hn), (stat_cls _ _ Hn). repeat split; try assumption; [lia|congruence].
        -- intros (H1 & i & H2 & H3 & H4 & H5). destruct (Hlt i H2) as [Hi| ->].
           ++ left. split; [assumption|]. exists i. auto.
           ++ right. split; [congruence|assumption].
      * split; [|intros (H1 & i & H2 & H3 & H4 & H5); specialize (Hax _ _ H2 H3); lia].
        intros [H|[_ H]]; [discriminate|]. apply Hal in H. lia.
    + intros i Hi. destruct (Hlt i ltac:(lia)) as [Hi'| ->].
      * rewrite (stat_line _ _ (Hg i Hi')). specialize (K5 i ltac:(lia)). lia.
      * rewrite (stat_line _ _ Hn). lia.
    + intros i j Hij Hj. rewrite (stat_line _ _ (Hg i ltac:(lia))). destruct (Hlt j Hj) as [Hj'| ->].
      * rewrite (stat_line _ _ (Hg j Hj')). auto.
      * rewrite (stat_line _ _ Hn), Hln. apply K5. fold h. lia.
Qed.

Theorem reach_KInv inp st : reach inp st -> KInv st.
Proof.
  induction 1 as [|st st' Hr IH Hlt Hs].
  - constructor.
    + intros [|i] Hi; cbn in Hi; [|lia]. unfold pristine, hget. cbn. repeat split; auto; try discriminate; congruence.
    + repeat split; [constructor|intros t l []].
    + repeat split; [constructor|intros t l []].
    + intros [|a] Ha; cbn in Ha; [|lia]. cbn. split; [discriminate|]. intros [H _]. discriminate.
    + intros i Hi. cbn in Hi. lia.
    + intros i j H1 H2. cbn in H2. lia.
  - destruct (reach_inv _ _ Hr) as [HI _]. destruct (reach_inv inp st') as [HI' _]; [econstructor; eassumption|].
    eapply step_KInv; [exact HI|exact HI'|assumption|]. eapply step_tchange; try eassumption. lia.
Qed.

(** two different instructions differ in their line number (used by the model of the resolver) *)
Theorem lines_unique inp st i j : reach inp st -> 0 < i < length (a_heap st) -> 0 < j < length (a_heap st) ->
  n_line (hget (a_heap st) i) = n_line (hget (a_heap st) j) -> i = j.
Proof.
  intros Hr Hi Hj He. destruct (reach_KInv _ _ Hr) as [_ _ _ _ _ K].
  destruct (lt_eq_lt_dec i j) as [[H|H]|H]; [|assumption|].
  - specialize (K i j ltac:(lia) ltac:(lia)). lia.
  - specialize (K j i ltac:(lia) ltac:(lia)). lia.
Qed.
