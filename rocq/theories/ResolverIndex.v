(** ResolverIndex: the indexing pass of the resolver finds the candidates. *)
From Coq Require Import Permutation.
From Verif Require Import Base Types Scan Analyzer TokenStep HeapFacts AnalyzerInv AnalyzerLoop SpecTree AnalyzerTree
  AnalyzerFinal AnalyzerCopies Resolver SpecResolve.

(** what the resolver may assume about its input *)
Record Analysed (h : heap) (cs cn : list (text * list nat)) : Prop := {
  an_s : SInv h;
  an_d : DInv h;
  an_pr : forall i, i < length h -> pristine (hget h i);
  an_cs : collects tpl_sec h cs;
  an_cn : collects tpl_elem h cn;
  an_deep : marked h;
  an_key : forall i, 0 < i < length h -> ncls (hget h i) = CItem \/ n_key (hget h i) <> None
}.

Lemma analysed inp st lc : analyze inp = AOk st lc -> Analysed (a_heap st) (a_cs st) (a_cn st).
Proof.
  intro Ha. destruct (final_reach _ _ _ Ha) as (st0 & Hr & _ & -> & _ & -> & -> & _).
  destruct (reach_inv _ _ Hr) as [HI _]. destruct (reach_KInv _ _ Hr) as [K1 K2 K3 K4 K5 K6].
  destruct HI as [I1 I2 _ _ _ _ _ _ _].
  constructor; try assumption. intros i Hi. pose proof (reach_keyed _ _ Hr) as HF. rewrite Forall_forall in HF.
  apply HF. pose proof (s_len _ I1). destruct (a_heap st0) as [|d l]; cbn in *; [lia|]. destruct i as [|i]; [lia|].
  cbn. apply nth_In. lia.
Qed.

Lemma encloses_above h a i : encloses h a i <-> above h a i.
Proof.
  split; induction 1; [apply above_parent|eapply above_up|apply enc_parent|eapply enc_up]; eassumption.
Qed.

Section Index.
  Context (h : heap) (cs cn : list (text * list nat)) (HA : Analysed h cs cn).
  Let HS := an_s _ _ _ HA.
  Let HD := an_d _ _ _ HA.

  (** the order in which elements are indexed: below a section, then the section *)
  Fixpoint post (fuel s : nat) : list nat :=
    match fuel with
    | O => []
    | S f => flat_map (fun e => if itype_eqb (n_type (hget h e)) SECTION then post f e ++ [e] else [e]) (n_elements (hget h s))
    end.

  Definition index1 (tbls : copy_table * copy_table) (e : nat) : rres (copy_table * copy_table) :=
    if itype_eqb (n_type (hget h e)) SECTION then
      match index_candidate h (fst tbls) e with
      | ROk ts => ROk (ts, snd tbls)
      | RErr x y => RErr x y | RKey => RKey | RFuel => RFuel
      end
    else
      match index_candidate h (snd tbls) e with
      | ROk tn => ROk (fst tbls, tn)
      | RErr x y => RErr x y | RKey => RKey | RFuel => RFuel
      end.
  Definition rfold {A B} (f : A -> B -> rres A) (l : list B) (acc : rres A) : rres A :=
    fold_left (fun acc e => match acc with ROk a => f a e | r => r end) l acc.
  Lemma rfold_app {A B} (f : A -> B -> rres A) l1 l2 acc : rfold f (l1 ++ l2) acc = rfold f l2 (rfold f l1 acc).
  Proof. apply fold_left_app. Qed.
  Lemma rfold_fail {A B} (f : A -> B -> rres A) l acc : (forall a, acc <> ROk a) -> rfold f l acc = acc.
  Proof.
    induction l as [|x l IH]; intro H; [reflexivity|]. cbn. rewrite <- IH at 2 by assumption.
    destruct acc; [exfalso; now eapply H|..]; reflexivity.
  Qed.

  Lemma children_lt s e : s < length h -> In e (n_elements (hget h s)) ->
    e < length h /\ s < e /\ n_parent (hget h e) = Some s /\ (ncls (hget h e) = CElem \/ ncls (hget h e) = CSec).
  Proof.
    intros Hs Hin. rewrite (d_elems _ HD s Hs) in Hin. apply in_ids in Hin as [He Hf].
    unfold elem_of, has_parent, is_cls in Hf. apply andb_true_iff in Hf as [H1 H2].
    destruct (n_parent (hget h e)) as [q|] eqn:Eq; [|discriminate]. apply Nat.eqb_eq in H1. subst q.
    split; [assumption|]. split; [eapply SInv_parent_lt; eassumption|]. split; [reflexivity|].
    apply orb_true_iff in H2 as [H2|H2]; apply nclass_eqb_eq in H2; auto.
  Qed.
  Lemma in_children s e : s < length h -> e < length h -> n_parent (hget h e) = Some s ->
    ncls (hget h e) = CElem \/ ncls (hget h e) = CSec -> In e (n_elements (hget h s)).
  Proof.
    intros Hs He Hp Hc. rewrite (d_elems _ HD s Hs). apply in_ids. split; [assumption|].
    unfold elem_of, is_cls. rewrite (has_parent_self _ _ Hp). destruct Hc as [-> | ->]; reflexivity.
  Qed.

  Lemma index_fold fuel : forall s tbls, s < length h -> length h - s < fuel ->
    index fuel h tbls s = rfold index1 (post fuel s) (ROk tbls).
  Proof.
    induction fuel as [|f IH]; intros s tbls Hs Hf; [lia|]. cbn [index post].
    assert (forall e, In e (n_elements (hget h s)) -> e < length h /\ s < e) as Hin.
    { intros e He. apply children_lt in He; tauto. }
    assert (forall l acc, (forall e, In e l -> e < length h /\ s < e) ->
      fold_left (fun acc e =>
        match acc with
        | ROk (ts, tn) =>
            if itype_eqb (n_type (hget h e)) SECTION then
              match index f h (ts, tn) e with
              | ROk (ts', tn') =>
                  match index_candidate h ts' e with
                  | ROk ts'' => ROk (ts'', tn')
                  | RErr x y => RErr x y | RKey => RKey | RFuel => RFuel
                  end
              | r => r
              end
            else
              match index_candidate h tn e with
              | ROk tn' => ROk (ts, tn')
              | RErr x y => RErr x y | RKey => RKey | RFuel => RFuel
              end
        | r => r
        end) l acc =
      rfold index1 (flat_map (fun e => if itype_eqb (n_type (hget h e)) SECTION then post f e ++ [e] else [e]) l) acc) as H.
    { induction l as [|e l IHl]; intros acc Hl; [reflexivity|]. cbn [fold_left flat_map]. rewrite rfold_app.
      rewrite IHl by (intros; apply Hl; now right). f_equal. destruct (Hl e ltac:(now left)) as [He1 He2].
      destruct acc as [[ts tn]| | |];
        [|symmetry; apply rfold_fail; discriminate..].
      destruct (itype_eqb (n_type (hget h e)) SECTION) eqn:Et.
      - rewrite rfold_app, IH by lia. destruct (rfold index1 (post f e) (ROk (ts, tn))) as [[ts' tn']| | |]; cbn;
          try reflexivity. unfold index1. rewrite Et. reflexivity.
      - cbn. unfold index1. rewrite Et. reflexivity. }
    apply H. assumption.
  Qed.

  Lemma type_sec n : itype_eqb (n_type n) SECTION = true <-> ncls n = CSec.
  Proof. unfold ncls. destruct (n_type n); cbn; split; congruence. Qed.

  Lemma post_in fuel : forall s e, s < length h -> length h - s < fuel ->
    In e (post fuel s) <-> e < length h /\ above h s e /\ (ncls (hget h e) = CElem \/ ncls (hget h e) = CSec).
  Proof.
    induction fuel as [|f IH]; intros s e Hs Hf; [lia|]. cbn [post]. rewrite in_flat_map. split.
    - intros (c & Hc & He). apply children_lt in Hc as (Hc1 & Hc2 & Hc3 & Hc4); [|assumption].
      destruct (itype_eqb (n_type (hget h c)) SECTION) eqn:Et.
      + apply in_app_or in He as [He|[<-|[]]].
        * apply IH in He as (H1 & H2 & H3); [|assumption|lia]. split; [assumption|]. split; [|assumption].
          clear - H2 Hc3. induction H2 as [i p Hp|i p a Hp Ha IHa].
          -- eapply above_up; [exact Hp|]. now apply above_parent.
          -- eapply above_up; [exact Hp|auto].
        * split; [assumption|]. split; [now apply above_parent|assumption].
      + destruct He as [<-|[]]. split; [assumption|]. split; [now apply above_parent|assumption].
    - intros (He & Ha & Hc).
      (* the child of [s] on the way *)
      assert (exists c, c < length h /\ n_parent (hget h c) = Some s /\ (c = e \/ above h c e)) as (c & Hcl & Hcp & Hce).
      { clear Hc. induction Ha as [i p Hp|i p a Hp Ha IHa].
        - exists i. auto.
        - pose proof (SInv_parent_lt _ _ _ HS He Hp). destruct (IHa Hs Hf ltac:(lia)) as (c & H1 & H2 & [->|H3]).
          + exists p. split; [assumption|]. split; [assumption|]. right. now apply above_parent.
          + exists c. split; [assumption|]. split; [assumption|]. right. eapply above_up; eassumption. }
      pose proof (SInv_parent_lt _ _ _ HS Hcl Hcp) as Hlt.
      destruct Hce as [->|Hce].
      + exists e. split; [now apply in_children|]. destruct (itype_eqb _ _); [apply in_or_app; right|]; now left.
      + assert (sec_like (hget h c)) as Hsl.
        { clear - Hce He Hc HS. assert (forall i p, i < length h -> (ncls (hget h i) = CElem \/ sec_like (hget h i)) ->
            n_parent (hget h i) = Some p -> p < length h /\ sec_like (hget h p)) as Hstep.
          { intros i p Hi Hci Hp. pose proof (SInv_parent_lt _ _ _ HS Hi Hp). split; [lia|].
            destruct (s_node _ HS i ltac:(lia)) as (q & Hq & _ & Hpl). rewrite Hq in Hp. injection Hp as ->.
            unfold placed in Hpl. destruct Hci as [Hci|[Hci|Hci]]; rewrite Hci in Hpl; [apply Hpl|contradiction|apply Hpl]. }
          assert (ncls (hget h e) = CElem \/ sec_like (hget h e)) as Hc' by (unfold sec_like; tauto). clear Hc.
          induction Hce as [i p Hp|i p a Hp Ha IHa].
          - now apply (Hstep i p).
          - apply IHa; [|right]; now apply (Hstep i p). }
        assert (ncls (hget h c) = CSec) as Hcs.
        { destruct Hsl as [Hd|]; [|assumption]. apply cls_doc in Hd; [lia|assumption|assumption]. }
        exists c. split; [apply in_children; auto|].
        rewrite (proj2 (type_sec _) Hcs). apply in_or_app. left. apply IH; auto. lia.
  Qed.

  Lemma above_trans a b c : above h a b -> above h b c -> above h a c.
  Proof. intros H1 H2. induction H2 as [i p Hp|i p b Hp Ha IH]; eapply above_up; eauto. Qed.
  (** ancestors of one node are on one path *)
  Lemma above_linear a b i : above h a i -> above h b i -> a = b \/ above h a b \/ above h b a.
  Proof.
    intro Ha. revert b. induction Ha as [i p Hp|i p a Hp Ha IH]; intros b Hb.
    - apply (above_inv _ _ _ _ Hp) in Hb as [->|Hb]; auto.
    - apply (above_inv _ _ _ _ Hp) in Hb as [->|Hb]; auto.
  Qed.

  Lemma NoDup_app_intro {A} (l1 l2 : list A) : NoDup l1 -> NoDup l2 -> (forall x, In x l1 -> ~ In x l2) -> NoDup (l1 ++ l2).
  Proof.
    induction l1 as [|x l1 IH]; intros H1 H2 H3; [assumption|]. inversion_clear H1. cbn. constructor.
    - rewrite in_app_iff. intros [H'|H']; [contradiction|]. apply (H3 x); [now left|assumption].
    - apply IH; auto. intros y Hy. apply H3. now right.
  Qed.

  Lemma post_NoDup fuel : forall s, s < length h -> length h - s < fuel -> NoDup (post fuel s).
  Proof.
    induction fuel as [|f IH]; intros s Hs Hf; [lia|]. cbn [post].
    assert (NoDup (n_elements (hget h s))) as Hnd.
    { rewrite (d_elems _ HD s Hs). apply NoDup_filter, seq_NoDup. }
    assert (forall c, In c (n_elements (hget h s)) -> c < length h /\ s < c /\ n_parent (hget h c) = Some s /\
       (ncls (hget h c) = CElem \/ ncls (hget h c) = CSec)) as Hin by (intros; now apply children_lt).
    (* members of a block are at or below its child *)
    assert (forall c e, In c (n_elements (hget h s)) ->
       In e (if itype_eqb (n_type (hget h c)) SECTION then post f c ++ [c] else [c]) -> e = c \/ above h c e) as Hblk.
    { intros c e Hc He. destruct (Hin c Hc) as (H1 & H2 & _). destruct (itype_eqb _ _).
      - apply in_app_or in He as [He|[->|[]]]; [|auto]. apply post_in in He; [tauto|assumption|lia].
      - destruct He as [->|[]]; auto. }
    induction (n_elements (hget h s)) as [|c l IHl]; cbn [flat_map]; [constructor|].
    inversion_clear Hnd. apply NoDup_app_intro.
    - destruct (Hin c ltac:(now left)) as (H1 & H2 & _). destruct (itype_eqb _ _); [|constructor; [tauto|constructor]].
      apply NoDup_snoc; [apply IH; lia|]. intro Hc. apply post_in in Hc as (_ & Hc & _); [|assumption|lia].
      apply above_lt in Hc; [lia|assumption|assumption].
    - apply IHl; auto; intros; (apply Hin || apply Hblk); try assumption; now right.
    - intros e He1 He2. apply in_flat_map in He2 as (c' & Hc' & He2).
      destruct (Hin c ltac:(now left)) as (C1 & C2 & C3 & _). destruct (Hin c' ltac:(now right)) as (D1 & D2 & D3 & _).
      apply Hblk in He1; [|now left]. apply Hblk in He2; [|now right].
      assert (c <> c') as Hcc by (intros ->; contradiction).
      assert (forall x y, x < length h -> y < length h -> n_parent (hget h x) = Some s -> n_parent (hget h y) = Some s -> above h x y -> False) as Hno.
      { intros x y Hx Hy Px Py Ha. apply (above_inv _ _ _ _ Py) in Ha as [->|Ha].
        - apply SInv_parent_lt in Px; auto; lia.
        - apply SInv_parent_lt in Px; [|assumption|assumption]. apply above_lt in Ha; [lia|assumption|lia]. }
      destruct He1 as [->|He1], He2 as [He2|He2].
      + congruence.
      + eapply (Hno c' c); eauto.
      + subst. eapply (Hno c c'); eauto.
      + destruct (above_linear _ _ _ He1 He2) as [|[|]]; [congruence|eapply (Hno c c')|eapply (Hno c' c)]; eauto.
  Qed.

  Definition order : list nat := post (S (length h)) 0.

  Lemma above_root i : 0 < i < length h -> above h 0 i.
  Proof.
    induction i as [i IH] using lt_wf_ind. intro Hi. destruct (s_node _ HS i Hi) as (p & Hp & Hlt & _).
    destruct (Nat.eq_dec p 0) as [->|Hne]; [now apply above_parent|]. eapply above_up; [exact Hp|]. apply IH; lia.
  Qed.

  Lemma order_NoDup : NoDup order.
  Proof. apply post_NoDup; [apply HS|lia]. Qed.
  Lemma order_in e : In e order <-> e < length h /\ (ncls (hget h e) = CElem \/ ncls (hget h e) = CSec).
  Proof.
    unfold order. rewrite post_in by (try apply HS; lia). split; [tauto|]. intros [He Hc]. split; [assumption|].
    split; [|assumption]. apply above_root. destruct e; [|lia]. pose proof (s_doc _ HS) as Hd. rewrite Hd in Hc.
    destruct Hc; discriminate.
  Qed.

  (** * Slots *)

  Definition candb (sec : bool) (k : text) (e : nat) : bool :=
    Bool.eqb (itype_eqb (n_type (hget h e)) SECTION) sec && text_eqb k (key_of h e) &&
    negb (match n_template (hget h e) with Some t => text_eqb k t | None => false end).

  (** [tbl] is [tbl0] with the only candidate among [L] filled in *)
  Definition slots (sec : bool) (L : list nat) (tbl0 : list (text * list nat)) (tbl : copy_table) : Prop :=
    map fst tbl = map fst tbl0 /\
    forall k, match assoc k tbl0 with
              | None => assoc k tbl = None
              | Some tg => exists slot, assoc k tbl = Some (tg, slot) /\
                  filter (candb sec k) L = match slot with Some t => [t] | None => [] end
              end.

  Lemma assoc_map {A B} (f : A -> B) k (l : list (text * A)) :
    assoc k (map (fun p => (fst p, f (snd p))) l) = option_map f (assoc k l).
  Proof.
    induction l as [|[k' v] l IH]; [reflexivity|]. cbn. destruct (text_eqb k k'); [reflexivity|assumption].
  Qed.
  Lemma start_slots sec tbl0 : slots sec [] tbl0 (start_table tbl0).
  Proof.
    unfold slots, start_table. split.
    - rewrite map_map. reflexivity.
    - intro k. rewrite (assoc_map (fun l => (l, @None nat))). destruct (assoc k tbl0) as [tg|]; [|reflexivity].
      exists None. split; reflexivity.
  Qed.

  Lemma slots_skip sec L tbl0 tbl e : (forall k, assoc k tbl0 <> None -> candb sec k e = false) ->
    slots sec L tbl0 tbl -> slots sec (L ++ [e]) tbl0 tbl.
  Proof.
    intros He [H1 H2]. split; [assumption|]. intro k. specialize (H2 k). specialize (He k).
    destruct (assoc k tbl0) as [tg|]; [|assumption]. destruct H2 as (slot & H2 & H3). exists slot. split; [assumption|].
    rewrite filter_app. cbn [filter]. rewrite He by discriminate. now rewrite app_nil_r.
  Qed.

  (** the result of considering one element for a table *)
  Lemma candidate_step sec L tbl0 tbl e : slots sec L tbl0 tbl ->
    itype_eqb (n_type (hget h e)) SECTION = sec ->
    match index_candidate h tbl e with
    | ROk tbl' => slots sec (L ++ [e]) tbl0 tbl'
    | RErr x h' => h' = h /\ exists k tg f, assoc k tbl0 = Some tg /\ x = PTwoTemplates (hd 0 tg) f e /\
                     filter (candb sec k) (L ++ [e]) = [f; e]
    | _ => False
    end.
  Proof.
    intros Hsl Hsec. pose proof Hsl as [H1 H2]. unfold index_candidate. pose proof (H2 (key_of h e)) as Hk.
    assert (forall k, candb sec k e = text_eqb k (key_of h e) &&
       negb (match n_template (hget h e) with Some t => text_eqb k t | None => false end)) as Hc.
    { intro k. unfold candb. now rewrite Hsec, eqb_reflx. }
    destruct (assoc (key_of h e) tbl0) as [tg|] eqn:E0.
    2:{ rewrite Hk. apply slots_skip; [|assumption]. intros k Hk'. rewrite Hc.
        destruct (text_eqb k (key_of h e)) eqn:Ek; [|reflexivity]. apply text_eqb_eq in Ek. congruence. }
    destruct Hk as (slot & Ek & Hf). rewrite Ek.
    destruct (match n_template (hget h e) with Some t => text_eqb (key_of h e) t | None => false end) eqn:Et.
    - apply slots_skip; [|assumption]. intros k _. rewrite Hc. destruct (text_eqb k (key_of h e)) eqn:Ek'; [|reflexivity].
      apply text_eqb_eq in Ek'. subst k. now rewrite Et.
    - assert (candb sec (key_of h e) e = true) as Hce by (rewrite Hc, text_eqb_refl, Et; reflexivity).
      destruct slot as [f|].
      + split; [reflexivity|]. exists (key_of h e), tg, f. split; [assumption|].
        split; [destruct tg; reflexivity|]. rewrite filter_app, Hf. cbn [filter]. now rewrite Hce.
      + split.
        * rewrite assoc_upd_fst, Ek. cbn. assumption.
        * intro k. specialize (H2 k). destruct (list_eq_dec N.eq_dec k (key_of h e)) as [->|Hne].
          -- rewrite E0 in *. rewrite assoc_upd_eq, Ek. cbn. eexists. split; [reflexivity|].
             rewrite filter_app, Hf. cbn [filter]. now rewrite Hce.
          -- rewrite assoc_upd_neq by congruence. destruct (assoc k tbl0) as [tg'|]; [|assumption].
             destruct H2 as (slot & H2 & H3). exists slot. split; [assumption|]. rewrite filter_app, H3. cbn [filter].
             rewrite Hc. destruct (text_eqb k (key_of h e)) eqn:Ek'; [apply text_eqb_eq in Ek'; contradiction|].
             apply app_nil_r.
  Qed.

  Definition table (sec : bool) : list (text * list nat) := if sec then cs else cn.

  Lemma index_rfold : forall L2 L1 ts tn, slots true L1 cs ts -> slots false L1 cn tn ->
    match rfold index1 L2 (ROk (ts, tn)) with
    | ROk (ts', tn') => slots true (L1 ++ L2) cs ts' /\ slots false (L1 ++ L2) cn tn'
    | RErr x h' => h' = h /\ exists sec k tg f e rest, assoc k (table sec) = Some tg /\
                     x = PTwoTemplates (hd 0 tg) f e /\ filter (candb sec k) (L1 ++ L2) = f :: e :: rest
    | _ => False
    end.
  Proof.
    induction L2 as [|e L2 IH]; intros L1 ts tn Hs Hn.
    - cbn. rewrite app_nil_r. auto.
    - change (rfold index1 (e :: L2) (ROk (ts, tn))) with (rfold index1 L2 (index1 (ts, tn) e)).
      replace (L1 ++ e :: L2) with ((L1 ++ [e]) ++ L2) by (rewrite <- app_assoc; reflexivity).
      unfold index1. cbn [fst snd]. destruct (itype_eqb (n_type (hget h e)) SECTION) eqn:Et.
      + pose proof (candidate_step true L1 cs ts e Hs Et) as Hc. destruct (index_candidate h ts e) as [ts'|x h'| |]; try contradiction.
        * apply IH; [assumption|]. apply slots_skip; [|assumption]. intros k _. unfold candb. now rewrite Et.
        * rewrite rfold_fail by discriminate. destruct Hc as [-> (k & tg & f & H1 & H2 & H3)]. split; [reflexivity|].
          exists true, k, tg, f, e, (filter (candb true k) L2). repeat split; try assumption.
          rewrite filter_app, H3. reflexivity.
      + pose proof (candidate_step false L1 cn tn e Hn Et) as Hc. destruct (index_candidate h tn e) as [tn'|x h'| |]; try contradiction.
        * apply IH; [|assumption]. apply slots_skip; [|assumption]. intros k _. unfold candb. now rewrite Et.
        * rewrite rfold_fail by discriminate. destruct Hc as [-> (k & tg & f & H1 & H2 & H3)]. split; [reflexivity|].
          exists false, k, tg, f, e, (filter (candb false k) L2). repeat split; try assumption.
          rewrite filter_app, H3. reflexivity.
  Qed.

  Lemma kind_cls sec n : of_kind sec n <-> ncls n = if sec then CSec else CElem.
  Proof. destruct sec; cbn; symmetry; [apply ncls_sec|apply ncls_elem]. Qed.
  Lemma key_elem e : e < length h -> (ncls (hget h e) = CElem \/ ncls (hget h e) = CSec) -> n_key (hget h e) = Some (key_of h e).
  Proof.
    intros He Hc. assert (0 < e) as Hpos.
    { destruct e; [|lia]. pose proof (s_doc _ HS) as Hd. rewrite Hd in Hc. destruct Hc; discriminate. }
    unfold key_of. destruct (an_key _ _ _ HA e ltac:(lia)) as [Hi|Hk]; [destruct Hc; congruence|].
    destruct (n_key (hget h e)); [reflexivity|congruence].
  Qed.

  Lemma candb_candidate sec k e : In e (filter (candb sec k) (order)) <-> candidate sec h k e.
  Proof.
    unfold candidate. rewrite filter_In, order_in, kind_cls. unfold candb.
    split.
    - intros [[He Hc] Hb]. apply andb_true_iff in Hb as [Hb Ht]. apply andb_true_iff in Hb as [Hb Hk].
      apply text_eqb_eq in Hk. subst k. split; [assumption|]. split.
      + destruct sec; apply eqb_prop in Hb.
        * now apply type_sec.
        * destruct Hc as [|Hc]; [assumption|]. apply type_sec in Hc. congruence.
      + split; [now apply key_elem|]. apply negb_true_iff in Ht. destruct (n_template (hget h e)) as [t|]; [|discriminate].
        intros [= ->]. now rewrite text_eqb_refl in Ht.
    - intros (He & Hc & Hk & Ht). assert (ncls (hget h e) = CElem \/ ncls (hget h e) = CSec) as Hc' by (destruct sec; auto).
      split; [auto|]. rewrite (key_elem e He Hc') in Hk. injection Hk as <-. rewrite text_eqb_refl, andb_true_r.
      apply andb_true_iff. split.
      + destruct sec; [apply type_sec in Hc; now rewrite Hc|]. destruct (itype_eqb _ _) eqn:Et; [|reflexivity].
        apply type_sec in Et. congruence.
      + apply negb_true_iff. destruct (n_template (hget h e)) as [t|]; [|reflexivity].
        apply text_eqb_neq. congruence.
  Qed.

  Lemma copies_in sec k tg c : assoc k (table sec) = Some tg -> In c tg <-> copies sec h c k.
  Proof.
    intro Hk. assert (In c tg <-> In c (olist (assoc k (table sec)))) as -> by (rewrite Hk; reflexivity).
    unfold copies. rewrite kind_cls. destruct sec.
    - destruct (an_cs _ _ _ HA) as (_ & _ & H). cbn [table]. rewrite H, in_ids. unfold tpl_sec, is_cls.
      rewrite andb_true_iff, nclass_eqb_eq. split.
      + intros (H1 & H2 & H3). repeat split; try assumption. destruct (n_template _); [|discriminate]. apply text_eqb_eq in H3. congruence.
      + intros (H1 & H2 & H3). rewrite H3, text_eqb_refl. auto.
    - destruct (an_cn _ _ _ HA) as (_ & _ & H). cbn [table]. rewrite H, in_ids. unfold tpl_elem, is_cls.
      rewrite andb_true_iff, nclass_eqb_eq. split.
      + intros (H1 & H2 & H3). repeat split; try assumption. destruct (n_template _); [|discriminate]. apply text_eqb_eq in H3. congruence.
      + intros (H1 & H2 & H3). rewrite H3, text_eqb_refl. auto.
  Qed.
  Lemma copies_assoc sec k c : copies sec h c k -> exists tg, assoc k (table sec) = Some tg /\ In c tg.
  Proof.
    intro Hc. assert (In c (olist (assoc k (table sec)))) as Hin.
    { destruct Hc as (H1 & H2 & H3). apply kind_cls in H2. destruct sec; cbn [table].
      - destruct (an_cs _ _ _ HA) as (_ & _ & H). rewrite H. apply in_ids. split; [assumption|]. unfold tpl_sec, is_cls.
        rewrite H2, H3. apply text_eqb_refl.
      - destruct (an_cn _ _ _ HA) as (_ & _ & H). rewrite H. apply in_ids. split; [assumption|]. unfold tpl_elem, is_cls.
        rewrite H2, H3. apply text_eqb_refl. }
    destruct (assoc k (table sec)) as [tg|]; [|contradiction]. eauto.
  Qed.
  Lemma target_hd sec k tg : assoc k (table sec) = Some tg -> copies sec h (hd 0 tg) k.
  Proof.
    intro Hk. apply (copies_in sec k tg); [assumption|]. pose proof (assoc_in _ _ _ Hk) as Hin. destruct sec.
    - destruct (an_cs _ _ _ HA) as (_ & H & _). specialize (H k tg Hin). destruct tg; [contradiction|now left].
    - destruct (an_cn _ _ _ HA) as (_ & H & _). specialize (H k tg Hin). destruct tg; [contradiction|now left].
  Qed.

  (** the table after indexing: every entry with its targets and the only candidate *)
  Definition indexed (sec : bool) (tbl : copy_table) : Prop :=
    map fst tbl = map fst (table sec) /\ NoDup (map fst tbl) /\
    (forall k tg slot, In (k, (tg, slot)) tbl ->
       tg <> [] /\ (forall c, In c tg <-> copies sec h c k) /\
       match slot with
       | Some t => candidate sec h k t /\ forall t', candidate sec h k t' -> t' = t
       | None => forall t, ~ candidate sec h k t
       end) /\
    (forall k c, copies sec h c k -> exists tg slot, In (k, (tg, slot)) tbl /\ In c tg).

  Lemma slots_indexed sec tbl : slots sec (order) (table sec) tbl -> indexed sec tbl.
  Proof.
    intros [H1 H2]. assert (NoDup (map fst tbl)) as Hnd.
    { rewrite H1. destruct sec; [apply (an_cs _ _ _ HA)|apply (an_cn _ _ _ HA)]. }
    split; [assumption|]. split; [assumption|]. split.
    - intros k tg slot Hin. apply in_assoc in Hin; [|assumption]. specialize (H2 k).
      destruct (assoc k (table sec)) as [tg0|] eqn:E0; [|congruence]. destruct H2 as (slot' & E & Hf). rewrite Hin in E.
      injection E as <- <-. split; [|split].
      + destruct sec; [apply (an_cs _ _ _ HA) with (t := k)|apply (an_cn _ _ _ HA) with (t := k)]; now apply assoc_in.
      + intro c. now apply copies_in.
      + destruct slot as [t|].
        * split; [apply candb_candidate; rewrite Hf; now left|]. intros t' Ht'. apply candb_candidate in Ht'. rewrite Hf in Ht'.
          destruct Ht' as [|[]]; auto.
        * intros t Ht. apply candb_candidate in Ht. rewrite Hf in Ht. destruct Ht.
    - intros k c Hc. destruct (copies_assoc _ _ _ Hc) as (tg & Hk & Hin). specialize (H2 k). rewrite Hk in H2.
      destruct H2 as (slot & E & _). exists tg, slot. split; [now apply assoc_in|assumption].
  Qed.

  Theorem index_spec :
    match index (S (length h)) h (start_table cs, start_table cn) 0 with
    | ROk (ts, tn) => indexed true ts /\ indexed false tn
    | RErr x h' => h' = h /\ exists sec k c f e, x = PTwoTemplates c f e /\ copies sec h c k /\
                     candidate sec h k f /\ candidate sec h k e /\ f <> e
    | _ => False
    end.
  Proof.
    rewrite index_fold by (try apply HS; lia). fold order.
    pose proof (index_rfold order [] _ _ (start_slots true cs) (start_slots false cn)) as H. cbn [app] in H.
    destruct (rfold _ _ _) as [[ts tn]|x h'| |]; try contradiction.
    - destruct H as [H1 H2]. split; now apply slots_indexed.
    - destruct H as [-> (sec & k & tg & f & e & rest & Hk & -> & Hf)]. split; [reflexivity|].
      exists sec, k, (hd 0 tg), f, e. split; [reflexivity|]. split; [now apply target_hd|].
      split; [apply candb_candidate; rewrite Hf; now left|]. split; [apply candb_candidate; rewrite Hf; right; now left|].
      intros ->. pose proof (NoDup_filter (candb sec k) order_NoDup) as Hnd. rewrite Hf in Hnd. inversion_clear Hnd.
      apply H. now left.
  Qed.
End Index.
