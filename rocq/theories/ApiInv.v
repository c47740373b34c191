(** ApiInv: the objects handed out by the API are consistent with the document. *)
From Verif Require Import Base Types Messages Resolver Reporter Errors Context Elements SpecTree SpecRead SpecApi Reads AnalyzerCopies ApiDoc.

Definition with_map (m : list (text * list nat)) (o : obj) : obj :=
  MkObj (o_class o) (o_instr o) (o_parent o) (o_touched o) (o_req o) (o_children o) m
        (o_yielded o) (o_empty o) (o_field o) (o_fieldset o) (o_list o) (o_section o).
Definition fresh_obj (cl : class) (o : nat) (e : nat) : obj :=
  MkObj cl e (Some o) false false None [] None None None None None None.

Lemma upd_compose {A} (l : list A) i f g : upd (upd l i f) i g = upd l i (fun x => g (f x)).
Proof. revert i. induction l as [|x l IH]; intros [|i]; cbn; [reflexivity..|]. now rewrite IH. Qed.
Lemma upd_ext {A} (l : list A) i f g : (forall x, f x = g x) -> upd l i f = upd l i g.
Proof. intro H. revert i. induction l as [|x l IH]; intros [|i]; cbn; [reflexivity..| |]; [now rewrite H|now rewrite IH]. Qed.
Lemma upd_ext_at {A} (l : list A) i f g d : (i < length l -> f (nth i l d) = g (nth i l d)) -> upd l i f = upd l i g.
Proof. revert i. induction l as [|x l IH]; intros [|i] H; cbn in *; [reflexivity..| |]; [now rewrite H by lia|rewrite IH; [reflexivity|]; intro; apply H; lia]. Qed.
Lemma upd_id_at {A} (l : list A) i f d : (i < length l -> f (nth i l d) = nth i l d) -> upd l i f = l.
Proof. revert i. induction l as [|x l IH]; intros [|i] H; cbn in *; [reflexivity..| |]; [now rewrite H by lia|rewrite IH; [reflexivity|]; intro; apply H; lia]. Qed.

Lemma text_eqb_refl k : text_eqb k k = true. Proof. now apply text_eqb_eq. Qed.

Section Api.
  Context (r : heap) (HD : Doc r).

  Definition key (e : nat) : text := key_of r e.

  (** ** Groups by key *)

  (** pairs (instruction, object) *)
  Definition under (k : text) (ps : list (nat * nat)) : list nat := map snd (filter (fun p => text_eqb k (key (fst p))) ps).
  Definition groups (m : list (text * list nat)) (ps : list (nat * nat)) : Prop :=
    NoDup (map fst m) /\ forall k, assoc k m = match under k ps with [] => None | l => Some l end.

  Lemma groups_nil : groups [] [].
  Proof. split; [constructor|reflexivity]. Qed.
  Lemma under_app k a b : under k (a ++ b) = under k a ++ under k b.
  Proof. unfold under. now rewrite filter_app, map_app. Qed.
  Lemma assoc_upd_nodup {A} k (f : A -> A) v l : NoDup (map fst l) -> NoDup (map fst (assoc_upd k f v l)).
  Proof.
    intro H. induction l as [|[k' w] l IH]; cbn; [repeat constructor; intros []|]. destruct (text_eqb k k') eqn:E; cbn; [assumption|].
    apply NoDup_cons_iff in H as [H1 H2]. constructor; [|now apply IH].
    intro Hin. apply H1. clear - Hin E. apply in_map_iff in Hin as ([k2 w2] & <- & Hin). apply assoc_upd_in in Hin.
    destruct Hin as [Hin|Hin]; [now apply (in_map fst) in Hin|]. destruct Hin as [-> _]. cbn in E. now rewrite text_eqb_refl in E.
  Qed.
  Lemma groups_snoc m ps e x : groups m ps -> groups (assoc_upd (key e) (fun l => l ++ [x]) [x] m) (ps ++ [(e, x)]).
  Proof.
    intros [H1 H2]. split; [now apply assoc_upd_nodup|]. intro k. rewrite under_app.
    destruct (text_eqb k (key e)) eqn:E.
    - apply text_eqb_eq in E. subst k. rewrite assoc_upd_eq, H2. replace (under (key e) [(e, x)]) with [x] by (unfold under; cbn; now rewrite text_eqb_refl).
      destruct (under (key e) ps); reflexivity.
    - rewrite assoc_upd_neq by (intros <-; now rewrite text_eqb_refl in E). rewrite H2.
      replace (under k [(e, x)]) with (@nil nat) by (unfold under; cbn; now rewrite E). now rewrite app_nil_r.
  Qed.

  Lemma groups_none m ps e : groups m ps -> opt_is (assoc (key e) m) = existsb (fun p => text_eqb (key e) (key (fst p))) ps.
  Proof.
    intros [_ H]. rewrite H. unfold under. clear H. induction ps as [|p ps IH]; [reflexivity|]. cbn. destruct (text_eqb (key e) (key (fst p))); [reflexivity|exact IH].
  Qed.

  (** ** States *)

  Context (c0 : ctx) (Hc0 : c_heap c0 = r).
  Let inp := c_input c0.

  Record CtxOk (c : ctx) : Prop := { co_ctx : c = with_heap c0 (c_heap c); co_heap : Cached inp r [] (c_heap c) }.

  Lemma key_same c e : CtxOk c -> key_of (c_heap c) e = key e.
  Proof. intros [_ H]. unfold key, key_of. now rewrite (ca_key inp r _ e H). Qed.

  (** instantiating children one by one *)
  Fixpoint index_all (m : list (text * list nat)) (es : list nat) (n : nat) : list (text * list nat) :=
    match es with [] => m | e :: es' => index_all (assoc_upd (key e) (fun l => l ++ [n]) [n] m) es' (S n) end.
  Lemma groups_all es : forall m ps n, groups m ps -> groups (index_all m es n) (ps ++ combine es (seq n (length es))).
  Proof.
    induction es as [|e es IH]; intros m ps n H; cbn; [now rewrite app_nil_r|].
    change (ps ++ (e, n) :: combine es (seq (S n) (length es))) with (ps ++ [(e, n)] ++ combine es (seq (S n) (length es))).
    rewrite app_assoc. apply IH. now apply groups_snoc.
  Qed.

  Lemma children_new cl o es : cl = CSectionElement \/ cl = CEntry -> (forall e, In e es -> n_key (hget r e) <> None) ->
    forall s, CtxOk (s_ctx s) -> o < length (s_objs s) ->
    mapM (instantiate_child cl o) es s =
      (MkSt (s_ctx s) (upd (s_objs s) o (with_map (index_all (o_map (oget s o)) es (length (s_objs s)))) ++ map (fresh_obj cl o) es),
       Ok (seq (length (s_objs s)) (length es))).
  Proof.
    intros Hcl. induction es as [|e es IH]; intros Hk s HC Ho; cbn [mapM length seq map index_all].
    - unfold ret. f_equal. destruct s as [c os]. cbn in *. f_equal. rewrite app_nil_r. symmetry. apply (upd_id_at _ _ _ no_obj).
      intros _. unfold oget. cbn. destruct (nth o os no_obj); reflexivity.
    - unfold mbind at 1 2. unfold instantiate_child at 1. unfold mbind. unfold new_obj, alloc, inode, lift, oset, upd_obj, ret. cbn [fst snd s_ctx s_objs].
      destruct HC as [HC1 HC2]. rewrite (ca_key inp r _ e HC2).
      pose proof (Hk e (or_introl eq_refl)) as Hke. destruct (n_key (hget r e)) as [k|] eqn:Ek; [|contradiction]. cbn [key_or].
      assert (key e = k) as Ekk by (unfold key, key_of; now rewrite Ek).
      set (s1 := MkSt _ _). specialize (IH (fun x Hx => Hk x (or_intror Hx)) s1). rewrite IH; clear IH.
      + subst s1. cbn [s_ctx s_objs]. rewrite upd_length, app_length. cbn [length]. replace (length (s_objs s) + 1) with (S (length (s_objs s))) by lia.
        f_equal. f_equal. rewrite upd_compose. rewrite upd_app_l by assumption. rewrite <- app_assoc. cbn [app]. f_equal.
        * rewrite <- Ekk. apply (upd_ext_at _ _ _ _ no_obj). intro. unfold oget. cbn [s_objs]. rewrite nth_upd_eq by (rewrite app_length; lia).
          rewrite app_nth1 by assumption. reflexivity.
        * f_equal. unfold fresh_obj. destruct Hcl as [-> | ->]; reflexivity.
      + split; assumption.
      + subst s1. cbn. rewrite upd_length, app_length. lia.
  Qed.

  Lemma key_text e k : n_key (hget r e) = Some k -> key e = k.
  Proof. unfold key, key_of. now intros ->. Qed.
  Lemma key_eq x y : n_key (hget r x) <> None -> n_key (hget r y) <> None -> text_eqb (key x) (key y) = true <-> n_key (hget r x) = n_key (hget r y).
  Proof.
    intros Hx Hy. rewrite text_eqb_eq. unfold key, key_of. destruct (n_key (hget r x)), (n_key (hget r y)); try contradiction. split; congruence.
  Qed.
  Lemma without_is own l l' : without r own l l' -> (forall x, In x own -> n_key (hget r x) <> None) ->
    (forall x, In x l -> n_key (hget r x) <> None) -> l' = filter (fun x => negb (has_key r own x)) l.
  Proof.
    intros H Ho. assert (R : forall x, n_key (hget r x) <> None -> has_key r own x = true <-> redefined r own x).
    { intros x Hx. unfold has_key. rewrite existsb_exists. split.
      - intros (y & Hy & E). exists y. split; [assumption|]. apply (key_eq x y) in E; auto.
      - intros (y & Hy & E). exists y. split; [assumption|]. apply (key_eq x y); auto. }
    induction H as [|x l l' Hn H IH|x l l' Hn H IH]; intro Hl; [reflexivity|..]; cbn [filter]; specialize (R x (Hl x (or_introl eq_refl))).
    - destruct (has_key r own x); [exfalso; apply Hn; now apply R|]. cbn. f_equal. apply IH. intros; apply Hl; now right.
    - apply R in Hn. rewrite Hn. cbn. apply IH. intros; apply Hl; now right.
  Qed.
  Lemma without_sub own l l' : without r own l l' -> forall x, In x l' -> In x l.
  Proof. induction 1 as [|y l l' Hn H IH|y l l' Hn H IH]; intros x Hx; [destruct Hx| |right; auto]. destruct Hx; [now left|right; auto]. Qed.
  Lemma own_element_keys e x : In x (own_elements r e) -> n_key (hget r x) <> None.
  Proof. intro H. apply (doc_elements r HD e x H). Qed.
  Lemma element_list_from e l : element_list r e l -> forall x, In x l -> exists e', In x (own_elements r e').
  Proof.
    induction 1 as [e H|e m l H1 H2 IH|e t l l' H1 H2 IH H3]; intros x Hx; eauto.
    apply in_app_or in Hx as [Hx|Hx]; [eauto|]. apply IH. eapply without_sub; eassumption.
  Qed.
  Lemma element_list_keys e l : element_list r e l -> forall x, In x l -> n_key (hget r x) <> None.
  Proof. intros H x Hx. destruct (element_list_from e l H x Hx) as (e' & He). eapply own_element_keys; eassumption. Qed.
  Lemma entry_list_from e l : entry_list r e l -> forall x, In x l -> exists e', In x (own_entries r e').
  Proof.
    induction 1 as [e H|e m l H1 H2 IH|e t l l' H1 H2 IH H3]; intros x Hx; eauto.
    apply in_app_or in Hx as [Hx|Hx]; [|eauto]. apply IH. eapply without_sub; eassumption.
  Qed.
  Lemma own_entry_key e x : In x (own_entries r e) -> n_key (hget r x) <> None.
  Proof. intro H. apply (doc_entries r HD e x H). Qed.
  Lemma entry_list_keys e l : entry_list r e l -> forall x, In x l -> n_key (hget r x) <> None.
  Proof. intros H x Hx. destruct (entry_list_from e l H x Hx) as (e' & He). eapply own_entry_key; eassumption. Qed.

  (** those of [L] whose key is not that of one of [ps] *)
  Definition indexed_in (ps : list (nat * nat)) (e : nat) : bool := existsb (fun p => text_eqb (key e) (key (fst p))) ps.
  Definition new_of (ps : list (nat * nat)) (L : list nat) : list nat := filter (fun e => negb (indexed_in ps e)) L.

  Lemma new_app ps a b : new_of ps (a ++ b) = new_of ps a ++ new_of ps b.
  Proof. apply filter_app. Qed.
  Lemma new_nil L : new_of [] L = L.
  Proof. unfold new_of. induction L as [|x L IH]; [reflexivity|]. cbn. now f_equal. Qed.
  Lemma indexed_app a b x : indexed_in (a ++ b) x = indexed_in a x || indexed_in b x.
  Proof. apply existsb_app. Qed.
  Lemma existsb_combine (f : nat -> bool) a n : existsb (fun p => f (fst p)) (combine a (seq n (length a))) = existsb f a.
  Proof. revert n. induction a as [|x a IH]; intro n; cbn; [reflexivity|]. now rewrite IH. Qed.
  Lemma indexed_combine a n x : indexed_in (combine a (seq n (length a))) x = has_key r a x.
  Proof. apply (existsb_combine (fun y => text_eqb (key x) (key y))). Qed.

  (** removing what was indexed after indexing [own] is removing what [own] redefines *)
  Lemma new_after ps own n l : new_of (ps ++ combine (new_of ps own) (seq n (length (new_of ps own)))) l =
    new_of ps (filter (fun x => negb (has_key r own x)) l).
  Proof.
    induction l as [|x l IH]; [reflexivity|]. cbn [filter]. unfold new_of at 1. cbn [filter].
    rewrite indexed_app, indexed_combine. fold (new_of (ps ++ combine (new_of ps own) (seq n (length (new_of ps own)))) l). rewrite IH.
    assert (indexed_in ps x = false -> has_key r (new_of ps own) x = has_key r own x) as E.
    { intro Hx. clear - Hx. induction own as [|y own IH]; [reflexivity|]. unfold new_of. cbn [filter].
      fold (new_of ps own). destruct (text_eqb (key x) (key y)) eqn:Exy.
      - assert (indexed_in ps y = false) as ->.
        { apply text_eqb_eq in Exy. unfold indexed_in in *. now rewrite <- Exy. }
        cbn [negb]. unfold has_key. cbn. fold (key x) (key y). now rewrite Exy.
      - transitivity (has_key r own x); [|unfold has_key; cbn; fold (key x) (key y); now rewrite Exy]. rewrite <- IH.
        destruct (indexed_in ps y); cbn [negb]; [reflexivity|]. unfold has_key. cbn. fold (key x) (key y). now rewrite Exy. }
    destruct (indexed_in ps x) eqn:Ei; cbn [orb negb].
    - destruct (has_key r own x); cbn [negb]; [reflexivity|]. unfold new_of at 2. cbn [filter]. rewrite Ei. reflexivity.
    - rewrite E by reflexivity. destruct (has_key r own x); cbn [negb]; [reflexivity|]. unfold new_of at 2. cbn [filter]. rewrite Ei. reflexivity.
  Qed.

  Lemma not_indexed_is o l s ps : CtxOk (s_ctx s) -> groups (o_map (oget s o)) ps -> not_indexed o l s = (s, Ok (new_of ps l)).
  Proof.
    intros HC Hg. unfold not_indexed. f_equal. f_equal. unfold new_of. apply filter_ext. intro e. rewrite key_same by assumption.
    unfold indexed_in. now rewrite (groups_none _ ps e Hg).
  Qed.
  Lemma new_sub ps l x : In x (new_of ps l) -> In x l.
  Proof. intro H. now apply filter_In in H. Qed.

  Lemma oget_app_l os c l o : o < length os -> oget (MkSt c (os ++ l)) o = oget (MkSt c os) o.
  Proof. intro H. unfold oget. cbn. now rewrite app_nth1. Qed.
  Lemma oget_upd c os o f : o < length os -> oget (MkSt c (upd os o f)) o = f (oget (MkSt c os) o).
  Proof. intro H. unfold oget. cbn. now rewrite nth_upd_eq. Qed.

  Lemma combine_seq (a b : list nat) n : combine (a ++ b) (seq n (length a) ++ seq (n + length a) (length b)) =
    combine a (seq n (length a)) ++ combine b (seq (n + length a) (length b)).
  Proof. revert n. induction a as [|x a IH]; intro n; cbn; [now rewrite Nat.add_0_r|]. f_equal. rewrite <- Nat.add_succ_comm. apply IH. Qed.

  Lemma inst_elements e p : path r e p -> forall L, element_list r e L ->
    forall fuel s o l0 ps, length p <= fuel -> CtxOk (s_ctx s) -> o < length (s_objs s) ->
    o_children (oget s o) = Some l0 -> groups (o_map (oget s o)) ps ->
    let news := new_of ps L in let n := length (s_objs s) in
    exists m, groups m (ps ++ combine news (seq n (length news))) /\
      instantiate_elements fuel o e s =
        (MkSt (s_ctx s) (upd (s_objs s) o (with_children (l0 ++ seq n (length news)) m) ++ map (fresh_obj CSectionElement o) news), Ok tt).
  Proof.
    induction 1 as [e H1 H2|e m0 p Hf Hp IH]; intros L HL fuel s o l0 ps Hfuel HC Ho Hch Hg news n; (destruct fuel as [|fuel]; [cbn in Hfuel; lia|]);
      cbn [instantiate_elements]; unfold mbind at 1, inode; pose proof (co_heap _ HC) as HC2;
      rewrite (ca_mirror inp r _ e HC2).
    - rewrite H1. unfold mbind at 1. rewrite (not_indexed_is o _ s ps HC Hg). rewrite (ca_els inp r _ e HC2), (ca_extend inp r _ e HC2), H2.
      assert (L = own_elements r e) as ->. { inversion HL as [? G|? ? ? G|? ? ? ? [G1 G2]]; subst; [reflexivity|unfold mirrors in G; congruence|congruence]. }
      fold (own_elements r e). change (new_of ps (own_elements r e)) with news.
      unfold mbind at 1. rewrite children_new; [|now left|intros x Hx; apply new_sub in Hx; now apply own_element_keys in Hx|assumption..].
      unfold mbind, append_children, oset, upd_obj, ret. cbn [s_ctx s_objs].
      exists (index_all (o_map (oget s o)) news n). split; [now apply groups_all|].
      f_equal. f_equal. rewrite upd_app_l by (rewrite upd_length; assumption). rewrite upd_compose. f_equal.
      apply (upd_ext_at _ _ _ _ no_obj). intros _. change (nth o (s_objs s) no_obj) with (oget s o). cbn. rewrite Hch. reflexivity.
    - destruct Hf as [Hm|[Hm1 Hm2]].
      + rewrite Hm. assert (element_list r m0 L) as HL'.
        { inversion HL as [? [G _]|? ? ? G G2|? ? ? ? [G1 G2]]; subst; [congruence| |congruence]. unfold mirrors in G. replace m0 with m by congruence. assumption. }
        apply (IH L HL' fuel s o l0 ps); try assumption. cbn in Hfuel. lia.
      + rewrite Hm1. assert (exists lt l', element_list r m0 lt /\ without r (own_elements r e) lt l' /\ L = own_elements r e ++ l') as (lt & l' & HLt & Hw & ->).
        { inversion HL as [? [_ G]|? ? ? G G2|? ? ? ? [G1 G2] Gl Gw]; subst; [congruence|unfold mirrors in G; congruence|]. replace m0 with t by congruence. eauto. }
        assert (l' = filter (fun x => negb (has_key r (own_elements r e) x)) lt) as El'.
        { apply without_is; [assumption|intros x Hx; eapply own_element_keys; eassumption|intros x Hx; eapply element_list_keys; eassumption]. }
        unfold mbind at 1. rewrite (not_indexed_is o _ s ps HC Hg). rewrite (ca_els inp r _ e HC2), (ca_extend inp r _ e HC2), Hm2.
        fold (own_elements r e). set (own := own_elements r e) in *. set (f1 := new_of ps own) in *.
        unfold mbind at 1. rewrite children_new; [|now left|intros x Hx; apply new_sub in Hx; now apply own_element_keys in Hx|assumption..].
        unfold mbind, append_children, oset, upd_obj. cbn [s_ctx s_objs]. fold n.
        rewrite upd_app_l by (rewrite upd_length; assumption). rewrite upd_compose.
        set (m1 := index_all (o_map (oget s o)) f1 n). set (s2 := MkSt _ _).
        assert (groups m1 (ps ++ combine f1 (seq n (length f1)))) as Hg1 by now apply groups_all.
        assert (Ho2 : o < length (s_objs s2)) by (subst s2; cbn; rewrite app_length, upd_length; lia).
        assert (E2 : oget s2 o = with_children (l0 ++ seq n (length f1)) m1 (oget s o)).
        { subst s2. rewrite oget_app_l by (rewrite upd_length; assumption). rewrite oget_upd by assumption. change (oget (MkSt (s_ctx s) (s_objs s)) o) with (oget s o).
          cbn. rewrite Hch. reflexivity. }
        destruct (IH lt HLt fuel s2 o (l0 ++ seq n (length f1)) (ps ++ combine f1 (seq n (length f1)))) as (m & Hgm & Em).
        { cbn in Hfuel. lia. } { exact HC. } { assumption. } { rewrite E2. reflexivity. } { rewrite E2. exact Hg1. }
        assert (Hn2 : length (s_objs s2) = n + length f1) by (subst s2; cbn; rewrite app_length, upd_length, map_length; reflexivity).
        cbv zeta in Hgm, Em. rewrite Hn2 in Hgm, Em. pose proof (new_after ps own n lt) as Ena. fold f1 in Ena. rewrite <- El' in Ena. rewrite Ena in Hgm, Em. set (f2 := new_of ps l') in *.
        assert (Enews : news = f1 ++ f2) by (unfold news, f1, f2; apply new_app).
        exists m. rewrite Enews, app_length, seq_app. split.
        * rewrite combine_seq, app_assoc. exact Hgm.
        * rewrite Em. f_equal. subst s2. cbn [s_ctx s_objs]. f_equal. rewrite upd_app_l by (rewrite upd_length; assumption). rewrite upd_compose.
          rewrite map_app, !app_assoc. f_equal.
  Qed.

  (** without any assumption on the links *)
  Lemma inst_any fuel : forall e s o l0 ps, CtxOk (s_ctx s) -> o < length (s_objs s) -> o_children (oget s o) = Some l0 -> groups (o_map (oget s o)) ps ->
    let n := length (s_objs s) in
    exists m news v, groups m (ps ++ combine news (seq n (length news))) /\
      instantiate_elements fuel o e s =
        (MkSt (s_ctx s) (upd (s_objs s) o (with_children (l0 ++ seq n (length news)) m) ++ map (fresh_obj CSectionElement o) news), v) /\
      (forall x, In x news -> exists e', In x (own_elements r e')) /\ (v = Ok tt /\ ends r e \/ v = Raise Fuel).
  Proof.
    induction fuel as [|fuel IH]; intros e s o l0 ps HC Ho Hch Hg n; cbn [instantiate_elements].
    { exists (o_map (oget s o)), [], (Raise Fuel). cbn. rewrite !app_nil_r. split; [assumption|]. split; [|split; [intros x []|now right]].
      unfold raise. destruct s as [c os]. cbn [s_ctx s_objs] in *. f_equal. f_equal. symmetry. apply (upd_id_at _ _ _ no_obj). intros _.
      change (nth o os no_obj) with (oget (MkSt c os) o). unfold with_children. rewrite <- Hch. now destruct (oget (MkSt c os) o). }
    unfold mbind at 1, inode; pose proof (co_heap _ HC) as HC2; rewrite (ca_mirror inp r _ e HC2).
    destruct (n_mirror (hget r e)) as [m0|] eqn:Em.
    - destruct (IH m0 s o l0 ps HC Ho Hch Hg) as (m & news & v & H1 & H2 & H3 & H4). exists m, news, v. split; [assumption|]. split; [assumption|]. split; [assumption|].
      destruct H4 as [[H4 H5]|H4]; [left|now right]. split; [assumption|]. now apply (en_mirror r e m0).
    - unfold mbind at 1. rewrite (not_indexed_is o _ s ps HC Hg). rewrite (ca_els inp r _ e HC2), (ca_extend inp r _ e HC2).
      fold (own_elements r e). set (own := own_elements r e) in *. set (f1 := new_of ps own) in *.
      unfold mbind at 1. rewrite children_new; [|now left|intros x Hx; apply new_sub in Hx; now apply own_element_keys in Hx|assumption..].
      unfold mbind, append_children, oset, upd_obj, ret. cbn [s_ctx s_objs]. fold n.
      rewrite upd_app_l by (rewrite upd_length; assumption). rewrite upd_compose.
      set (m1 := index_all (o_map (oget s o)) f1 n). set (s2 := MkSt _ _).
      assert (groups m1 (ps ++ combine f1 (seq n (length f1)))) as Hg1 by now apply groups_all.
      assert (Ho2 : o < length (s_objs s2)) by (subst s2; cbn; rewrite app_length, upd_length; lia).
      assert (E2 : oget s2 o = with_children (l0 ++ seq n (length f1)) m1 (oget s o)).
      { subst s2. rewrite oget_app_l by (rewrite upd_length; assumption). rewrite oget_upd by assumption. change (oget (MkSt (s_ctx s) (s_objs s)) o) with (oget s o).
        cbn. rewrite Hch. reflexivity. }
      assert (Hn2 : length (s_objs s2) = n + length f1) by (subst s2; cbn; rewrite app_length, upd_length, map_length; reflexivity).
      assert (Hs2 : s2 = MkSt (s_ctx s) (upd (s_objs s) o (with_children (l0 ++ seq n (length f1)) m1) ++ map (fresh_obj CSectionElement o) f1)).
      { subst s2. f_equal. f_equal. apply (upd_ext_at _ _ _ _ no_obj). intros _. change (nth o (s_objs s) no_obj) with (oget s o). cbn. rewrite Hch. reflexivity. }
      destruct (n_extend (hget r e)) as [t|] eqn:Et.
      + destruct (IH t s2 o (l0 ++ seq n (length f1)) (ps ++ combine f1 (seq n (length f1)))) as (m & f2 & v & H1 & H2 & H3 & H4).
        { exact HC. } { assumption. } { rewrite E2. reflexivity. } { rewrite E2. exact Hg1. }
        rewrite Hn2 in H1, H2. exists m, (f1 ++ f2), v. rewrite app_length, seq_app. split; [|split; [|split]].
        * rewrite combine_seq, app_assoc. exact H1.
        * rewrite H2, Hs2. cbn [s_ctx s_objs]. f_equal. f_equal. rewrite upd_app_l by (rewrite upd_length; assumption). rewrite upd_compose.
          rewrite map_app, !app_assoc. f_equal.
        * intros x Hx. apply in_app_or in Hx as [Hx|Hx]; [|auto]. exists e. now apply new_sub in Hx.
        * destruct H4 as [[H4 H5]|H4]; [left|now right]. split; [assumption|]. now apply (en_extend r e t).
      + exists m1, f1, (Ok tt). split; [assumption|]. split; [now rewrite Hs2|]. split; [intros x Hx; exists e; now apply new_sub in Hx|].
        left. split; [reflexivity|]. now apply en_plain.
  Qed.

  (** [s'] is [s] with new children [ids] of [o], for the instructions [es] *)
  Definition grown (cl : class) (o : nat) (s s' : st) (old ids es : list nat) (m : list (text * list nat)) : Prop :=
    exists news, s' = MkSt (s_ctx s) (upd (s_objs s) o (with_children (old ++ ids) m) ++ map (fresh_obj cl o) news) /\
      Forall (fun id => length (s_objs s) <= id < length (s_objs s) + length news) ids /\
      map (fun id => nth (id - length (s_objs s)) news 0) ids = es /\ (forall x, In x news -> In x es) /\
      (forall id, length (s_objs s) <= id < length (s_objs s) + length news -> In id ids).

  Lemma map_seq_nth (l : list nat) n : map (fun id => nth (id - n) l 0) (seq n (length l)) = l.
  Proof.
    assert (forall pre l, map (fun id => nth (id - n) (pre ++ l) 0) (seq (n + length pre) (length l)) = l) as H.
    { intros pre k. revert pre. induction k as [|x k IH]; intro pre; cbn [length seq map]; [reflexivity|]. f_equal.
      - replace (n + length pre - n) with (length pre) by lia. now rewrite nth_middle.
      - specialize (IH (pre ++ [x])). rewrite <- app_assoc, app_length in IH. cbn in IH. replace (n + (length pre + 1)) with (S (n + length pre)) in IH by lia. exact IH. }
    specialize (H [] l). cbn in H. now rewrite Nat.add_0_r in H.
  Qed.
  Lemma seq_range n k : Forall (fun id => n <= id < n + k) (seq n k).
  Proof. apply Forall_forall. intros x Hx. now apply in_seq in Hx. Qed.

  Lemma inst_section e p L fuel s o l0 ps : path r e p -> element_list r e L -> length p <= fuel -> CtxOk (s_ctx s) -> o < length (s_objs s) ->
    o_children (oget s o) = Some l0 -> groups (o_map (oget s o)) ps ->
    exists m s' ids, instantiate_elements fuel o e s = (s', Ok tt) /\ groups m (ps ++ combine (new_of ps L) ids) /\
      grown CSectionElement o s s' l0 ids (new_of ps L) m.
  Proof.
    intros H1 H2 H3 H4 H5 H6 H7. destruct (inst_elements e p H1 L H2 fuel s o l0 ps H3 H4 H5 H6 H7) as (m & G1 & G2).
    exists m. eexists. eexists. split; [exact G2|]. split; [exact G1|]. eexists. split; [reflexivity|]. split; [apply seq_range|].
    split; [apply map_seq_nth|split; [auto|intros id Hid; now apply in_seq]].
  Qed.

  Lemma under_combine k es ids : length es = length ids -> under k (combine es ids) = [] <-> (forall x, In x es -> text_eqb k (key x) = false).
  Proof.
    revert ids. induction es as [|e es IH]; intros [|i ids] HL; cbn in HL; try discriminate.
    - split; [intros _ x []|reflexivity].
    - unfold under. cbn. destruct (text_eqb k (key e)) eqn:E; cbn.
      + split; [discriminate|]. intro H. specialize (H e (or_introl eq_refl)). congruence.
      + fold (under k (combine es ids)). rewrite IH by lia. split; [intros H x [<-|Hx]; auto|]. intros H x Hx. apply H. now right.
  Qed.
  Lemma combine_app (a b a' b' : list nat) : length a = length a' -> combine (a ++ b) (a' ++ b') = combine a a' ++ combine b b'.
  Proof. revert a'. induction a as [|x a IH]; intros [|y a'] H; cbn in *; try discriminate; [reflexivity|]. f_equal. apply IH. lia. Qed.

  Lemma groups_swap m ps f1 ids1 es2 ids2 : length f1 = length ids1 -> length es2 = length ids2 ->
    (forall x, In x es2 -> indexed_in (ps ++ combine f1 ids1) x = false) ->
    groups m ((ps ++ combine f1 ids1) ++ combine es2 ids2) -> groups m (ps ++ combine (es2 ++ f1) (ids2 ++ ids1)).
  Proof.
    intros H1 H2 Hx [G1 G2]. split; [assumption|]. intro k. rewrite G2. rewrite combine_app by assumption. rewrite !under_app, <- app_assoc.
    assert (under k (combine f1 ids1) ++ under k (combine es2 ids2) = under k (combine es2 ids2) ++ under k (combine f1 ids1)) as ->; [|reflexivity].
    destruct (under k (combine f1 ids1)) as [|y l] eqn:E1; [now rewrite app_nil_r|].
    assert (under k (combine es2 ids2) = []) as ->; [|now rewrite app_nil_r].
    apply under_combine; [assumption|]. intros x Hin. destruct (text_eqb k (key x)) eqn:Ek; [exfalso|reflexivity].
    apply text_eqb_eq in Ek. specialize (Hx x Hin). rewrite indexed_app in Hx. apply orb_false_iff in Hx as [_ Hx].
    assert (In y (under k (combine f1 ids1))) as Hy by (rewrite E1; now left). unfold under in Hy. apply in_map_iff in Hy as (q & _ & Hq).
    apply filter_In in Hq as [Hq1 Hq2]. rewrite <- not_true_iff_false in Hx. apply Hx. unfold indexed_in. apply existsb_exists. exists q. now rewrite <- Ek.
  Qed.

  Lemma new_unindexed ps l x : In x (new_of ps l) -> indexed_in ps x = false.
  Proof. intro H. apply filter_In in H as [_ H]. now apply negb_true_iff in H. Qed.

  Lemma inst_entries e p : path r e p -> n_type (hget r e) = FIELDSET -> forall L, entry_list r e L ->
    forall fuel s o l0 ps, length p <= fuel -> CtxOk (s_ctx s) -> o < length (s_objs s) ->
    o_children (oget s o) = Some l0 -> groups (o_map (oget s o)) ps ->
    exists m s' ids, instantiate_entries fuel o e s = (s', Ok tt) /\ groups m (ps ++ combine (new_of ps L) ids) /\
      grown CEntry o s s' l0 ids (new_of ps L) m.
  Proof.
    induction 1 as [e H1 H2|e m0 p Hf Hp IH]; intros Hty L HL fuel s o l0 ps Hfuel HC Ho Hch Hg; (destruct fuel as [|fuel]; [cbn in Hfuel; lia|]);
      cbn [instantiate_entries]; unfold mbind at 1, inode; pose proof (co_heap _ HC) as HC2;
      rewrite (ca_mirror inp r _ e HC2); set (n := length (s_objs s)).
    - rewrite H1. rewrite (ca_ents inp r _ e HC2). pose proof (doc_fieldset_own r HD e Hty H1) as Hown.
      assert (L = own_entries r e) as ->. { inversion HL as [? G|? ? ? G|? ? ? ? [G1 G2]]; subst; [reflexivity|unfold mirrors in G; congruence|congruence]. }
      assert (own_entries r e = match n_entries (hget r e) with Some l => l | None => [] end) as Eown by reflexivity.
      destruct (n_entries (hget r e)) as [own|] eqn:Eo; [|contradiction]. rewrite Eown.
      unfold mbind at 1. rewrite (not_indexed_is o _ s ps HC Hg). rewrite (ca_extend inp r _ e HC2), H2.
      set (news := new_of ps own).
      unfold mbind at 1. rewrite children_new; [|now right|intros x Hx; apply new_sub in Hx; rewrite <- Eown in Hx; now apply own_entry_key in Hx|assumption..].
      unfold mbind, append_children, oset, upd_obj, ret. cbn [s_ctx s_objs]. fold n.
      exists (index_all (o_map (oget s o)) news n). eexists. exists (seq n (length news)). split; [reflexivity|]. split; [now apply groups_all|].
      exists news. split; [|split; [apply seq_range|split; [apply map_seq_nth|split; [auto|intros id Hid; now apply in_seq]]]].
      f_equal. rewrite upd_app_l by (rewrite upd_length; assumption). rewrite upd_compose. f_equal.
      apply (upd_ext_at _ _ _ _ no_obj). intros _. change (nth o (s_objs s) no_obj) with (oget s o). cbn. rewrite Hch. reflexivity.
    - destruct Hf as [Hm|[Hm1 Hm2]].
      + rewrite Hm. assert (entry_list r m0 L) as HL'.
        { inversion HL as [? [G _]|? ? ? G G2|? ? ? ? [G1 G2]]; subst; [congruence| |congruence]. unfold mirrors in G. replace m0 with m by congruence. assumption. }
        apply (IH (doc_fieldset r HD e m0 Hty (or_introl Hm)) L HL' fuel s o l0 ps); try assumption. cbn in Hfuel. lia.
      + rewrite Hm1. assert (exists lt l', entry_list r m0 lt /\ without r (own_entries r e) lt l' /\ L = l' ++ own_entries r e) as (lt & l' & HLt & Hw & ->).
        { inversion HL as [? [_ G]|? ? ? G G2|? ? ? ? [G1 G2] Gl Gw]; subst; [congruence|unfold mirrors in G; congruence|]. replace m0 with t by congruence. eauto. }
        assert (l' = filter (fun x => negb (has_key r (own_entries r e) x)) lt) as El'.
        { apply without_is; [assumption|intros x Hx; eapply own_entry_key; eassumption|intros x Hx; eapply entry_list_keys; eassumption]. }
        rewrite (ca_ents inp r _ e HC2). pose proof (doc_fieldset_own r HD e Hty Hm1) as Hown.
        assert (own_entries r e = match n_entries (hget r e) with Some l => l | None => [] end) as Eown by reflexivity.
        destruct (n_entries (hget r e)) as [own|] eqn:Eo; [|contradiction]. rewrite Eown in *.
        unfold mbind at 1. rewrite (not_indexed_is o _ s ps HC Hg). rewrite (ca_extend inp r _ e HC2), Hm2.
        set (f1 := new_of ps own) in *.
        unfold mbind at 1. rewrite children_new; [|now right|intros x Hx; apply new_sub in Hx; rewrite <- Eown in Hx; now apply own_entry_key in Hx|assumption..].
        fold n. set (m1 := index_all (o_map (oget s o)) f1 n). set (s2 := MkSt _ _).
        assert (groups m1 (ps ++ combine f1 (seq n (length f1)))) as Hg1 by now apply groups_all.
        assert (Ho2 : o < length (s_objs s2)) by (subst s2; cbn; rewrite app_length, upd_length; lia).
        assert (E2 : oget s2 o = with_map m1 (oget s o)).
        { subst s2. rewrite oget_app_l by (rewrite upd_length; assumption). rewrite oget_upd by assumption. reflexivity. }
        destruct (IH (doc_fieldset r HD e m0 Hty (or_intror (conj Hm1 Hm2))) lt HLt fuel s2 o l0 (ps ++ combine f1 (seq n (length f1)))) as (m & s3 & ids2 & E3 & Hgm & Hgr).
        { cbn in Hfuel. lia. } { exact HC. } { assumption. } { rewrite E2. exact Hch. } { rewrite E2. exact Hg1. }
        unfold mbind. rewrite E3. unfold append_children, oset, upd_obj. pose proof (new_after ps own n lt) as Ena. fold f1 in Ena. rewrite <- El' in Ena.
        destruct Hgr as (news2 & -> & R1 & R2 & R3 & R4). rewrite Ena in *.
        assert (Hn2 : length (s_objs s2) = n + length f1) by (subst s2; cbn; rewrite app_length, upd_length, map_length; reflexivity).
        rewrite Hn2 in *. set (f2 := new_of ps l') in *.
        exists m. eexists. exists (ids2 ++ seq n (length f1)). split; [reflexivity|]. rewrite new_app. fold f1 f2.
        assert (length f2 = length ids2) as Hl2 by (rewrite <- R2; now rewrite map_length).
        split.
        { apply groups_swap; [now rewrite seq_length|assumption| |exact Hgm]. intros x Hx. rewrite <- Ena in Hx. now apply new_unindexed in Hx. }
        exists (f1 ++ news2). split; [|split; [|split; [|split]]].
        * subst s2. cbn [s_ctx s_objs]. f_equal. rewrite (upd_app_l (upd (s_objs s) o _)) by (rewrite upd_length; assumption). rewrite upd_compose.
          rewrite <- app_assoc. rewrite upd_app_l by (rewrite upd_length; assumption). rewrite upd_compose. rewrite map_app. f_equal.
          apply (upd_ext_at _ _ _ _ no_obj). intros _. cbn. now rewrite <- app_assoc.
        * apply Forall_app. split.
          -- eapply Forall_impl; [|exact R1]. cbn. rewrite app_length. intros. lia.
          -- eapply Forall_impl; [|apply seq_range]. cbn. rewrite app_length. intros. lia.
        * rewrite map_app. f_equal.
          -- rewrite <- R2. apply map_ext_in. intros id Hid. rewrite Forall_forall in R1. specialize (R1 id Hid). cbn in R1.
             fold n. rewrite app_nth2 by lia. f_equal. lia.
          -- rewrite <- (map_seq_nth f1 n) at 2. apply map_ext_in. intros id Hid. apply in_seq in Hid. fold n. rewrite app_nth1 by lia. reflexivity.
        * intros x Hx. apply in_or_app. apply in_app_or in Hx as [Hx|Hx]; auto.
        * intros id Hid. rewrite app_length in Hid. fold n in Hid. apply in_or_app. destruct (Nat.lt_ge_cases id (n + length f1)); [right; apply in_seq; lia|left; apply R4; lia].
  Qed.

  Lemma items_new o es : forall s, mapM (fun i => new_obj CItem i (Some o)) es s =
    (MkSt (s_ctx s) (s_objs s ++ map (fresh_obj CItem o) es), Ok (seq (length (s_objs s)) (length es))).
  Proof.
    induction es as [|e es IH]; intro s; cbn [mapM length seq map].
    - unfold ret. rewrite app_nil_r. now destruct s.
    - unfold mbind at 1 2. unfold new_obj at 1, alloc. rewrite IH. cbn [s_ctx s_objs]. unfold ret. rewrite app_length, <- app_assoc. cbn [length app].
      now replace (length (s_objs s) + 1) with (S (length (s_objs s))) by lia.
  Qed.
  Lemma inst_items e p : path r e p -> n_type (hget r e) = LIST -> forall L, item_list r e L ->
    forall fuel s o, length p <= fuel -> CtxOk (s_ctx s) ->
    instantiate_items fuel o e s = (MkSt (s_ctx s) (s_objs s ++ map (fresh_obj CItem o) L), Ok (seq (length (s_objs s)) (length L))).
  Proof.
    induction 1 as [e H1 H2|e m0 p Hf Hp IH]; intros Hty L HL fuel s o Hfuel HC; (destruct fuel as [|fuel]; [cbn in Hfuel; lia|]);
      cbn [instantiate_items]; unfold mbind at 1, inode; pose proof (co_heap _ HC) as HC2;
      rewrite (ca_mirror inp r _ e HC2), (ca_extend inp r _ e HC2), (ca_its inp r _ e HC2).
    - rewrite H1, H2. assert (L = own_items r e) as ->. { inversion HL as [? G|? ? ? G|? ? ? [G1 G2]]; subst; [reflexivity|unfold mirrors in G; congruence|congruence]. }
      pose proof (doc_list_own r HD e Hty H1) as Hown. assert (own_items r e = match n_items (hget r e) with Some l => l | None => [] end) as Eown by reflexivity.
      destruct (n_items (hget r e)) as [own|] eqn:Eo; [|contradiction]. rewrite Eown. apply items_new.
    - destruct Hf as [Hm|[Hm1 Hm2]].
      + rewrite Hm. apply (IH (doc_list r HD e m0 Hty (or_introl Hm))); [|cbn in Hfuel; lia|assumption].
        inversion HL as [? [G _]|? ? ? G G2|? ? ? [G1 G2]]; subst; [congruence| |congruence]. unfold mirrors in G. replace m0 with m by congruence. assumption.
      + rewrite Hm1, Hm2. assert (exists lt, item_list r m0 lt /\ L = lt ++ own_items r e) as (lt & HLt & ->).
        { inversion HL as [? [_ G]|? ? ? G G2|? ? ? [G1 G2] Gl]; subst; [congruence|unfold mirrors in G; congruence|]. replace m0 with t by congruence. eauto. }
        pose proof (doc_list_own r HD e Hty Hm1) as Hown. assert (own_items r e = match n_items (hget r e) with Some l => l | None => [] end) as Eown by reflexivity.
        destruct (n_items (hget r e)) as [own|] eqn:Eo; [|contradiction]. rewrite Eown.
        unfold mbind at 1. rewrite (IH (doc_list r HD e m0 Hty (or_intror (conj Hm1 Hm2))) lt HLt fuel s o); [|cbn in Hfuel; lia|assumption].
        unfold lift, key_or. unfold mbind. rewrite items_new. cbn [s_ctx s_objs]. unfold ret. rewrite app_length, !map_length.
        rewrite <- app_assoc, <- map_app, app_length, seq_app. reflexivity.
  Qed.

  (** ** The lists exist *)
  Lemma without_total own l : (forall x, In x own -> n_key (hget r x) <> None) -> (forall x, In x l -> n_key (hget r x) <> None) -> exists l', without r own l l'.
  Proof.
    intro Ho. induction l as [|x l IH]; intro Hl; [exists []; constructor|]. destruct IH as (l' & IH); [intros; apply Hl; now right|].
    assert (redefined r own x \/ ~ redefined r own x) as [D|D].
    { destruct (has_key r own x) eqn:E.
      - left. apply existsb_exists in E as (y & Hy & E). exists y. split; [assumption|]. symmetry. apply (key_eq x y); auto. apply Hl. now left.
      - right. intros (y & Hy & E2). rewrite <- not_true_iff_false in E. apply E. apply existsb_exists. exists y. split; [assumption|].
        apply (key_eq x y); auto. apply Hl. now left. }
    - exists l'. now apply wo_drop.
    - exists (x :: l'). now apply wo_keep.
  Qed.
  Lemma element_list_total e : ends r e -> exists l, element_list r e l.
  Proof.
    induction 1 as [e H|e m H1 H2 (l & IH)|e t H1 H2 (l & IH)].
    - eexists. now apply li_own.
    - exists l. eapply li_mirror; eassumption.
    - destruct (without_total (own_elements r e) l) as (l' & Hl'); [apply own_element_keys|apply (element_list_keys _ _ IH)|].
      eexists. eapply li_extend; eassumption.
  Qed.
  Lemma entry_list_total e : ends r e -> exists l, entry_list r e l.
  Proof.
    induction 1 as [e H|e m H1 H2 (l & IH)|e t H1 H2 (l & IH)].
    - eexists. now apply le_own.
    - exists l. eapply le_mirror; eassumption.
    - destruct (without_total (own_entries r e) l) as (l' & Hl'); [apply own_entry_key|apply (entry_list_keys _ _ IH)|].
      eexists. eapply le_extend; eassumption.
  Qed.
  Lemma item_list_total e : ends r e -> exists l, item_list r e l.
  Proof.
    induction 1 as [e H|e m H1 H2 (l & IH)|e t H1 H2 (l & IH)].
    - eexists. now apply lt_own.
    - exists l. eapply lt_mirror; eassumption.
    - eexists. eapply lt_extend; eassumption.
  Qed.
End Api.
