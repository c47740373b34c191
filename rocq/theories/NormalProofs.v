(** NormalProofs: lemmas for C50. *)
From Coq Require Import Relations Sorted.
From Verif Require Import Base Types Scan Messages Analyzer TokenStep HeapFacts AnalyzerInv AnalyzerLoop StepChange SpecText AnalyzerText SpecTree AnalyzerTree
  AnalyzerFinal AnalyzerCopies Resolver SpecResolve ResolverIndex ResolverFields ResolverSections ResolverFinal ResolverComments
  SpecRun LookupDoc ReadLinks PropReadProofs   PropAnalysisProofs Reporter Errors Context Elements SpecRead SpecApi SpecQuery SpecLoad SpecRaw Reads ParseContext ParseOutcome ApiDoc Session RawProofs PropParseProofs PropRawProofs
  InheritProofs SpecCanon CanonScan CanonProofs SpecNormal.

(** * Comments *)

Lemma trimmed_line t : trimmed t -> t <> [] /\ ~ In nl t. Proof. intros (H1 & _ & _ & H2). auto. Qed.

Lemma lines_of_free x : ~ In nl x -> lines_of x = [x].
Proof.
  induction x as [|c x IH]; intro H; [reflexivity|]. cbn [lines_of]. destruct (N.eqb_spec c nl) as [->|]; [exfalso; apply H; now left|].
  rewrite IH; [reflexivity|]. intro K. apply H. now right.
Qed.
Lemma lines_of_app x y : ~ In nl x -> lines_of (x ++ nl :: y) = x :: lines_of y.
Proof.
  induction x as [|c x IH]; intro H; [reflexivity|]. cbn [lines_of app]. destruct (N.eqb_spec c nl) as [->|]; [exfalso; apply H; now left|].
  rewrite IH; [reflexivity|]. intro K. apply H. now right.
Qed.
Lemma lines_of_joined ls : ls <> [] -> Forall (fun l => ~ In nl l) ls -> lines_of (lines_joined ls) = ls.
Proof.
  induction ls as [|x [|y ls] IH]; intros Hn H; [congruence| |].
  - inversion H; subst. now apply lines_of_free.
  - inversion H as [|? ? H1 H2]; subst. change (lines_joined (x :: y :: ls)) with (x ++ nl :: lines_joined (y :: ls)).
    rewrite lines_of_app by assumption. rewrite IH; [reflexivity|discriminate|assumption].
Qed.

Lemma dedented_line k l : (forall t, l_text l = Some t -> trimmed t) -> comment_line (dedented k l) /\ ~ In nl (dedented k l) /\ (has_text l -> dedented k l <> []).
Proof.
  intro H. unfold dedented, has_text. destruct (l_text l) as [t|]; [|split; [now left|]; split; [intros []|congruence]].
  destruct (trimmed_line t (H t eq_refl)) as [T1 T2]. split; [|split].
  - right. eexists. exists t. split; [reflexivity|auto].
  - intro K. apply in_app_or in K as [K|K]; [|contradiction]. apply repeat_spec in K. discriminate.
  - intros _ K. apply app_eq_nil in K. now destruct K.
Qed.

Lemma last_rev {A} (l : list A) d x : hd_error (rev l) = Some x -> last l d = x.
Proof.
  intro H. destruct (rev l) as [|y r] eqn:E; [discriminate|]. cbn in H. injection H as ->. assert (l = rev r ++ [x]) as ->.
  { rewrite <- (rev_involutive l), E. reflexivity. } apply last_last.
Qed.

Lemma block_fine ls v : (forall l t, In l ls -> l_text l = Some t -> trimmed t) -> block_text ls v -> comment_fine (Some v).
Proof.
  intros HT H. destruct H as [ls|ls c k (a & b & E & Ha & Hb & Hn & Hh & Hl) [_ (l0 & L1 & L2 & L3)]]; [exact I|].
  assert (forall l, In l c -> comment_line (dedented k l) /\ ~ In nl (dedented k l) /\ (has_text l -> dedented k l <> [])) as K.
  { intros l Hi. apply dedented_line. intros t. apply HT. rewrite E. apply in_or_app. right. apply in_or_app. now left. }
  cbn [comment_fine]. rewrite lines_of_joined.
  2:{ destruct c; [congruence|discriminate]. }
  2:{ apply Forall_forall. intros x Hx. apply in_map_iff in Hx as (l & <- & Hi). now apply K. }
  split; [|split; [|split]].
  - apply Forall_forall. intros x Hx. apply in_map_iff in Hx as (l & <- & Hi). now apply K.
  - destruct c as [|l c]; [congruence|]. cbn. apply K; [now left|]. now apply Hh.
  - destruct (hd_error (rev c)) as [x|] eqn:Er.
    2:{ destruct (rev c) eqn:Ec; [|discriminate]. exfalso. apply Hn. rewrite <- (rev_involutive c), Ec. reflexivity. }
    rewrite (last_rev _ _ (dedented k x)).
    + apply K; [|now apply Hl]. apply in_rev. destruct (rev c); [discriminate|]. cbn in Er. injection Er as ->. now left.
    + rewrite <- map_rev. destruct (rev c); [discriminate|]. cbn in *. congruence.
  - apply Exists_exists. exists (dedented k l0). assert (In l0 c) as Hi.
    { rewrite E in L1. apply in_app_or in L1 as [L1|L1]; [exfalso; now apply (proj1 (Forall_forall _ _) Ha l0)|].
      apply in_app_or in L1 as [L1|L1]; [assumption|]. exfalso. now apply (proj1 (Forall_forall _ _) Hb l0). }
    split; [now apply in_map|]. unfold dedented, has_text in *. destruct (l_text l0) as [t|] eqn:Et; [|congruence].
    rewrite L3, Nat.sub_diag. cbn. apply (HT l0); [|assumption]. rewrite E. apply in_or_app. right. apply in_or_app. now left.
Qed.

(** * Values *)

Definition clean_parts (ps : list (option text * bool)) : Prop := forall t sp, In (Some t, sp) ps -> trimmed t.
Lemma clean_app a b : clean_parts (a ++ b) <-> clean_parts a /\ clean_parts b.
Proof.
  unfold clean_parts. split; [intro H; split; intros t sp Hi; apply (H t sp), in_or_app; auto|]. intros [H1 H2] t sp Hi. apply in_app_or in Hi as [Hi|Hi]; eauto.
Qed.
Lemma clean_cons p b : clean_parts (p :: b) <-> clean_parts [p] /\ clean_parts b.
Proof. apply (clean_app [p] b). Qed.

Lemma last_app_ne (a b : text) d : b <> [] -> last (a ++ b) d = last b d.
Proof.
  induction a as [|x a IH]; intro H; [reflexivity|]. cbn [app]. destruct (a ++ b) as [|y l] eqn:E; [apply app_eq_nil in E as [_ E]; congruence|].
  change (last (x :: y :: l) d) with (last (y :: l) d). now apply IH.
Qed.

(** what follows a text on a line *)
Definition ending (r : text) : Prop := r = [] \/ is_space (last r nl) = false /\ ~ In nl r.
Lemma ending_app t r : trimmed t -> ending r -> ending (t ++ r) /\ t ++ r <> [].
Proof.
  intros (T1 & _ & T3 & T4) He. split; [|destruct t; [congruence|discriminate]]. right. destruct He as [->|[H1 H2]]; [rewrite app_nil_r; auto|].
  split.
  - destruct r as [|c r]; [now rewrite app_nil_r|]. rewrite last_app_ne by discriminate. exact H1.
  - intro K. apply in_app_or in K as [K|K]; auto.
Qed.
Lemma rest_ending ps r : joined_rest ps r -> clean_parts ps -> ending r.
Proof.
  induction 1 as [gap H|gap t sp rest r H1 H2 H3 IH|gap t rest r H1 H2 H3 IH]; intro Hc; [now left| |].
  - apply clean_app in Hc as [_ Hc]. apply clean_cons in Hc as [C1 C2]. assert (trimmed t) as T by (eapply C1; now left).
    destruct (ending_app t r T (IH C2)) as [[E|[E1 E2]] E3]; [congruence|]. right. split.
    + change (32%N :: t ++ r) with ([32%N] ++ (t ++ r)). now rewrite last_app_ne.
    + intros [K|K]; [discriminate|auto].
  - apply clean_app in Hc as [_ Hc]. apply clean_cons in Hc as [C1 C2]. apply ending_app; [eapply C1; now left|auto].
Qed.
Lemma joined_fine ps v : joined ps v -> clean_parts ps -> value_fine v.
Proof.
  intros [ps' H|gap t sp rest r H1 H2] Hc; [exact I|]. apply clean_app in Hc as [_ Hc]. apply clean_cons in Hc as [C1 C2].
  assert (trimmed t) as T by (eapply C1; now left). destruct (ending_app t r T (rest_ending _ _ H2 C2)) as [[E|[E1 E2]] E3]; [congruence|].
  cbn. destruct T as (T1 & T2 & _). repeat split; auto. destruct t as [|c t]; [congruence|exact T2].
Qed.

(** continuations are marked as such *)
Definition conts_marked (n : node) : Prop := Forall (fun l => l_type l = Some CONTINUATION) (olist (n_conts n)).
Lemma reach_conts inp st : SpecRun.reach inp st -> Forall conts_marked (tl (a_heap st)).
Proof.
  apply reach_forall_cont.
  - intros x y Hc. unfold core, dyn in Hc. unfold conts_marked. replace (n_conts y) with (n_conts x) by congruence. auto.
  - intros g x Hg. destruct (Hg x) as (_ & G2 & _). unfold conts_marked. now rewrite G2.
  - intros st0 t e lf x _ _ Hic Hx. assert (l_type lf = Some CONTINUATION) as E by now destruct Hic. unfold conts_marked in *. unfold cont_upd.
    destruct (n_conts x) as [cs|]; cbn in *; [|repeat constructor; assumption]. apply Forall_app. split; [assumption|]. repeat constructor. assumption.
  - intros st0 t e n p e' l' _ _ Hcr _ _. destruct Hcr; try (destruct v); constructor.
Qed.
Lemma conts_typed inp st lc n l : analyze inp = AOk st lc -> In n (tl (a_heap st)) -> In l (match n_conts n with Some l => l | None => [] end) -> l_type l = Some CONTINUATION.
Proof.
  intros Ha Hn Hl. destruct (final_reach _ _ _ Ha) as (st0 & Hr & _ & Eh & _). rewrite Eh in Hn.
  pose proof (proj1 (Forall_forall _ _) (reach_conts _ _ Hr) n Hn) as H. exact (proj1 (Forall_forall _ _) H l Hl).
Qed.

(** * Order *)

Lemma sorted_filter f l : StronglySorted lt l -> StronglySorted lt (filter f l).
Proof.
  induction 1 as [|x l H IH HF]; cbn; [constructor|]. destruct (f x); [|assumption]. constructor; [assumption|].
  apply Forall_forall. intros y Hy. apply filter_In in Hy as [Hy _]. now apply (proj1 (Forall_forall _ _) HF).
Qed.
Lemma sorted_seq a n : StronglySorted lt (seq a n).
Proof.
  revert a. induction n as [|n IH]; intro a; cbn; [constructor|]. constructor; [apply IH|]. apply Forall_forall. intros x Hx. apply in_seq in Hx. lia.
Qed.
Lemma split_order (P Q : nat -> Prop) l : StronglySorted lt l -> (forall x, In x l -> P x \/ Q x) -> (forall x y, In x l -> In y l -> x < y -> Q x -> P y -> False) ->
  exists a b, l = a ++ b /\ Forall P a /\ Forall Q b.
Proof.
  induction 1 as [|x l H IH HF]; intros HPQ HO; [exists [], []; auto|]. rewrite Forall_forall in HF.
  destruct (HPQ x (or_introl eq_refl)) as [Hx|Hx].
  - destruct IH as (a & b & -> & Ha & Hb); [intros; apply HPQ; now right|intros x0 y H1 H2; apply HO; now right|]. exists (x :: a), b. auto.
  - exists [], (x :: l). repeat split; auto. constructor; [assumption|]. apply Forall_forall. intros y Hy. destruct (HPQ y (or_intror Hy)) as [Hp|]; [|assumption].
    exfalso. apply (HO x y); auto; [now left|now right].
Qed.

Lemma trees_forall inp h l xs : raw_trees inp h l xs -> Forall2 (raw_tree inp h) l xs.
Proof. induction 1; constructor; auto. Qed.

Section Parsed.
  Context {inp : text} {loc : locale} {rk : reporter_kind} {src : option text} {c : ctx}.
  Context (HP : parse_context inp loc rk src = Ok c) (HF : takes_no_sections (c_heap c)).
  Local Notation r := (c_heap c).
  Let HD : Doc r := doc_of_parse inp loc rk src c HP.

  Lemma comment_good e v : raw_comment r e v -> comment_fine v.
  Proof.
    destruct (parsed_heaps HP) as (st & lc & Ha & HA & Hr & HR). unfold raw_comment. pose proof (resolve_comments (a_heap st) (a_cs st) (a_cn st)) as Hc.
    rewrite Hr in Hc. destruct (Hc e) as [k Hk]. destruct (n_comments (hget r e)) as [ls|] eqn:E; [|intros ->; exact I].
    intros (_ & v' & Hb & ->). eapply block_fine; [|exact Hb]. intros l t Hl Ht. destruct (texts_trimmed _ _ _ Ha) as [_ HT].
    pose proof (analysed_comments _ _ _ Ha) as H0.
    assert (0 < k < length (a_heap st)) as Hk'.
    { destruct (Nat.eq_dec k 0) as [->|]; [rewrite (H0 0) in Hk by auto; discriminate|]. destruct (le_lt_dec (length (a_heap st)) k); [rewrite (H0 k) in Hk by auto; discriminate|lia]. }
    assert (In (hget (a_heap st) k) (tl (a_heap st))) as Hin.
    { destruct (a_heap st) as [|n0 h0]; [cbn in Hk'; lia|]. destruct k as [|k]; [lia|]. cbn in Hk'. cbn [tl]. unfold hget. cbn. apply nth_In. lia. }
    assert (In l (hanging (hget (a_heap st) k))) as Hi. { unfold hanging. rewrite <- Hk. apply in_or_app. now left. }
    assert (l_type l = Some COMMENT) as Hty.
    { destruct (comments_belong _ _ _ _ Ha Hin) as (_ & HG & _). rewrite <- Hk in HG. exact (proj1 (Forall_forall _ _) HG l Hl). }
    apply (HT l t); [|now left|assumption]. apply in_or_app. left. apply in_flat_map. eauto.
  Qed.

  Lemma in_tail (h : heap) k : 0 < k < length h -> In (hget h k) (tl h).
  Proof. destruct h as [|n0 h]; [cbn; lia|]. destruct k as [|k]; [lia|]. cbn. intro H. unfold hget. cbn. apply nth_In. lia. Qed.
  Lemma typed_lt e : n_type (hget r e) <> DOCUMENT -> 0 < e < length r.
  Proof.
    intro H. destruct (Nat.eq_dec e 0) as [->|]; [now rewrite (proj1 (proj2 (doc_root r HD))) in H|]. destruct (le_lt_dec (length r) e); [|lia].
    exfalso. apply H. unfold hget. now rewrite nth_overflow.
  Qed.
  Lemma key_good e k : n_key (hget r e) = Some k -> n_type (hget r e) <> DOCUMENT -> trimmed k.
  Proof.
    intros Hk Ht. pose proof (typed_lt e Ht) as He. destruct (parsed_heaps HP) as (st & lc & Ha & HA & Hr & HR). destruct (texts_trimmed _ _ _ Ha) as [HT _].
    rewrite (res_len _ _ HR) in He. apply (HT (hget (a_heap st) e)); [now apply in_tail|]. left. rewrite <- Hk. symmetry. apply (res_fields _ _ HR e).
  Qed.
  Lemma value_good e v : n_type (hget r e) = LIST_ITEM \/ n_type (hget r e) = FIELDSET_ENTRY -> value_text inp r e v -> value_fine v.
  Proof.
    intros Hty Hv. assert (0 < e < length r) as He by (apply typed_lt; destruct Hty; congruence).
    destruct (parsed_heaps HP) as (st & lc & Ha & HA & Hr & HR). rewrite (res_len _ _ HR) in He.
    assert (ncls (hget (a_heap st) e) = HeapFacts.CItem \/ ncls (hget (a_heap st) e) = HeapFacts.CEntry) as Ec.
    { rewrite <- (cls_res _ _ HR e). unfold ncls. destruct Hty as [-> | ->]; auto. }
    assert (hget r e = hget (a_heap st) e) as E.
    { apply (rs_other _ _ HR); [destruct Ec; congruence|]. intro X. apply kind_cls in X. cbn in X. destruct Ec; congruence. }
    destruct (an_pr _ _ _ HA e) as (Pm & _); [lia|]. destruct (texts_trimmed _ _ _ Ha) as [HT HC].
    inversion Hv as [? ? H1 H2|? m ? H1 H2]; subst; [|unfold mirrors in H1; congruence].
    assert (joined (parts (hget (a_heap st) e)) v) as Hj. { rewrite <- E. unfold plain_value in H2. destruct Hty as [X|X]; rewrite X in H2; exact H2. }
    eapply joined_fine; [exact Hj|]. pose proof (in_tail (a_heap st) e He) as Hin. intros t sp [K|K].
    - injection K as K _. apply (HT _ t Hin). auto.
    - apply in_map_iff in K as (l & K & Hl). injection K as K _. apply (HC l t); [|right|assumption].
      + apply in_or_app. left. apply in_flat_map. exists (hget (a_heap st) e). split; [assumption|]. unfold hanging. apply in_or_app. right. apply in_or_app. now left.
      + eapply conts_typed; eassumption.
  Qed.
  Lemma own_nonempty e : n_mirror (hget r e) = None -> (n_type (hget r e) = LIST -> own_items r e <> []) /\ (n_type (hget r e) = FIELDSET -> own_entries r e <> []).
  Proof.
    intro Hm. destruct (parsed_heaps HP) as (st & lc & Ha & HA & Hr & HR). destruct (res_fields _ _ HR e) as (_ & _ & _ & F1 & F2 & _).
    split; intro Ht.
    - pose proof (doc_list_own r HD e Ht Hm) as Hi. assert (0 < e < length r) as He by (apply typed_lt; congruence). rewrite (res_len _ _ HR) in He.
      pose proof (d_type _ (an_d _ _ _ HA) e ltac:(lia)) as [_ T]. unfold own_items. rewrite F1 in *. intro K. 
      destruct (n_type (hget (a_heap st) e)); try tauto; unfold plain_node in T; try (intuition congruence). 
    - pose proof (doc_fieldset_own r HD e Ht Hm) as Hi. assert (0 < e < length r) as He by (apply typed_lt; congruence). rewrite (res_len _ _ HR) in He.
      pose proof (d_type _ (an_d _ _ _ HA) e ltac:(lia)) as [_ T]. unfold own_entries. rewrite F2 in *. intro K. 
      destruct (n_type (hget (a_heap st) e)); try tauto; unfold plain_node in T; try (intuition congruence). 
  Qed.
  Lemma items_good e l : item_list r e l -> n_type (hget r e) = LIST -> l <> [] /\ forall x, In x l -> n_type (hget r x) = LIST_ITEM.
  Proof.
    induction 1 as [e [H1 H2]|e m l H1 H2 IH|e t l [H1 H1'] H2 IH]; intro Ht.
    - split; [now apply own_nonempty|]. intros x Hx. now apply (doc_items r HD e).
    - apply IH. eapply (doc_list r HD e); eauto.
    - destruct IH as [I1 I2]; [eapply (doc_list r HD e); [assumption|right; split; eassumption]|]. split; [destruct l; [congruence|discriminate]|].
      intros x Hx. apply in_app_or in Hx as [Hx|Hx]; [auto|]. now apply (doc_items r HD e).
  Qed.
  Lemma entries_good e l : entry_list r e l -> n_type (hget r e) = FIELDSET -> l <> [] /\ forall x, In x l -> n_type (hget r x) = FIELDSET_ENTRY.
  Proof.
    induction 1 as [e [H1 H2]|e m l H1 H2 IH|e t l l' [H1 H1'] H2 IH Hw]; intro Ht.
    - split; [now apply own_nonempty|]. intros x Hx. now apply (doc_entries r HD e).
    - apply IH. eapply (doc_fieldset r HD e); eauto.
    - destruct IH as [I1 I2]; [eapply (doc_fieldset r HD e); [assumption|right; split; eassumption]|]. split.
      + intro K. apply app_eq_nil in K as [_ K]. now apply (proj2 (own_nonempty e H1) Ht).
      + intros x Hx. apply in_app_or in Hx as [Hx|Hx]; [|now apply (doc_entries r HD e)]. apply I2. clear - Hw Hx. induction Hw; cbn in *; intuition.
  Qed.

  (** only sections, lists and fieldsets extend others *)
  Lemma extends_kind e t : extends r e t -> is_section (hget r e) \/ own_elements r t = [].
  Proof.
    intros [H1 H2]. destruct (parsed_heaps HP) as (st & lc & Ha & HA & Hr & HR).
    destruct (le_lt_dec (length r) e) as [L|L]; [unfold hget in H2; rewrite nth_overflow in H2 by assumption; discriminate|].
    assert (is_element (hget r e) \/ is_section (hget r e) \/ ncls (hget r e) <> HeapFacts.CSec /\ ~ of_kind false (hget r e)) as [He|[He|[K1 K2]]].
    { unfold is_element, is_section, ncls, of_kind, is_element. destruct (n_type (hget r e)); try (left; exact I); try (right; left; reflexivity); right; right; (split; [discriminate|intro X; exact X]). }
    - right. destruct (element_cases (a_heap st) (a_cs st) (a_cn st) HA r HR e He) as [_ [[_ Er]|(t' & _ & Hc)]].
      { destruct (pristine_over (a_heap st) (a_cs st) (a_cn st) HA e) as (P1 & P2 & _). congruence. }
      destruct Hc as [m _ E _ _ _ _|_ _ E Et Ety|_ _ E _ _]; try congruence. assert (t' = t) as -> by congruence.
      destruct (own_elements r t) as [|x l] eqn:El; [reflexivity|]. exfalso. assert (In x (own_elements r t)) as Hx by (rewrite El; now left).
      pose proof (doc_own r HD t x (or_introl Hx)) as Hp. destruct (doc_elements r HD t x Hx) as (X1 & X2 & _).
      destruct x as [|x]; [rewrite (doc_top r HD) in Hp; discriminate|]. destruct (doc_parent r HD (S x)) as (p & Q1 & _ & _ & Q2 & _); [lia|].
      assert (p = t) as -> by congruence. specialize (Q2 X2). unfold is_container in Q2. rewrite Et in Q2. destruct Q2, Ety; congruence.
    - now left.
    - exfalso. rewrite (cls_res _ _ HR e) in K1. rewrite (of_kind_res _ _ HR false e) in K2. pose proof (rs_other _ _ HR e K1 K2) as E.
      destruct (pristine_over (a_heap st) (a_cs st) (a_cn st) HA e) as (P1 & P2 & _). congruence.
  Qed.

  (** sections follow the other elements *)
  Lemma own_good e : exists a b, own_elements r e = a ++ b /\ Forall (fun x => is_element (hget r x)) a /\ Forall (fun x => is_section (hget r x)) b.
  Proof.
    destruct (parsed_heaps HP) as (st & lc & Ha & HA & Hr & HR). pose proof (document_is_tree _ _ _ Ha) as (T1 & T2 & T3 & T4 & T5).
    assert (own_elements r e = n_elements (hget (a_heap st) e)) as El by (unfold own_elements; apply (res_fields _ _ HR e)).
    destruct (le_lt_dec (length (a_heap st)) e) as [Hge|Hlt].
    { exists [], []. rewrite El. unfold hget. rewrite nth_overflow by assumption. repeat split; constructor. }
    destruct (T5 e Hlt) as (E1 & _). rewrite El, E1. apply split_order.
    - apply sorted_filter, sorted_seq.
    - intros x Hx. rewrite <- E1, <- El in Hx. now apply (doc_elements r HD e).
    - intros x y Hx Hy Hxy Hsx Hey. apply filter_In in Hx as [Hx1 Hx2]. apply filter_In in Hy as [Hy1 Hy2]. apply in_seq in Hx1, Hy1.
      apply andb_true_iff in Hx2 as [Hx2 _]. apply andb_true_iff in Hy2 as [Hy2 _].
      destruct (n_parent (hget (a_heap st) x)) as [px|] eqn:Px; [|discriminate]. destruct (n_parent (hget (a_heap st) y)) as [py|] eqn:Py; [|discriminate].
      apply Nat.eqb_eq in Hx2, Hy2. subst px py. assert (0 < x) as X0. { destruct x; [congruence|lia]. }
      destruct (T4 x ltac:(lia)) as (p & P1 & P2 & _). destruct (T4 y ltac:(lia)) as (q & Q1 & Q2 & Q3). assert (p = e) as -> by congruence. assert (q = e) as -> by congruence.
      unfold is_section in Hsx. assert (is_element (hget (a_heap st) y)) as Ky. { apply (of_kind_res _ _ HR false y). exact Hey. }
      assert (is_section (hget (a_heap st) x)) as Kx. { apply ncls_sec. rewrite <- (cls_res _ _ HR x). now apply ncls_sec. }
      unfold is_element in Ky. unfold well_placed in Q3. destruct (n_type (hget (a_heap st) y)); try contradiction; destruct Q3 as [_ Q3]; apply (Q3 x); auto; lia.
  Qed.
  Lemma elements_good e l : tail_at r e l ->
    exists a b, l = a ++ b /\ Forall (fun x => is_element (hget r x)) a /\ Forall (fun x => is_section (hget r x)) b.
  Proof.
    intros (k & -> & Hk). destruct (own_good e) as (a & b & E & Ha & Hb). exists (k ++ a), b. unfold own_elements in E. rewrite E, app_assoc. split; [reflexivity|]. split; [|assumption].
    apply Forall_app. split; [|assumption]. apply Forall_forall. intros x Hx. destruct (Hk x Hx) as [(i & Hi) Hn].
    destruct (doc_elements r HD i x Hi) as (_ & [H|H] & _); [assumption|]. destruct Hn; [|exact H]. intros e' t' x' H1 H2 H3 H4.
    destruct (extends_kind e' t' (conj H1 H2)) as [K|K]; [exact (HF e' t' x' K (conj H1 H2) H3 H4)|]. unfold own_elements in K. rewrite K in H3. destruct H3.
  Qed.

  (** * Descriptions *)

  Definition described (e : nat) (x : raw_t) : Prop :=
    (is_element (hget r e) -> element x) /\ (is_section (hget r e) -> section x) /\
    (n_type (hget r e) = LIST_ITEM -> item x) /\ (n_type (hget r e) = FIELDSET_ENTRY -> entry x) /\
    (n_type (hget r e) = DOCUMENT -> document x).

  Lemma sections_forall l : sections l <-> Forall section l.
  Proof. split; [induction 1; constructor; auto|]. induction 1; constructor; auto. Qed.
  Lemma members_split a b xs : Forall2 described (a ++ b) xs -> Forall (fun x => is_element (hget r x)) a -> Forall (fun x => is_section (hget r x)) b ->
    exists els subs, xs = els ++ subs /\ Forall element els /\ sections subs.
  Proof.
    intros H Ha Hb. apply Forall2_app_inv_l in H as (els & subs & H1 & H2 & ->). exists els, subs. split; [reflexivity|]. split.
    - clear - H1 Ha. induction H1 as [|x y l l' D H IH]; [constructor|]. inversion Ha; subst. constructor; [now apply D|auto].
    - apply sections_forall. clear - H2 Hb. induction H2 as [|x y l l' D H IH]; [constructor|]. inversion Hb; subst. constructor; [now apply D|auto].
  Qed.
  Lemma members_all (P : raw_t -> Prop) t l xs : (forall e x, described e x -> n_type (hget r e) = t -> P x) -> Forall2 described l xs ->
    (forall x, In x l -> n_type (hget r x) = t) -> (l <> [] -> xs <> []) /\ Forall P xs.
  Proof.
    intros HPt H. induction H as [|x y l l' D H IH]; intro Ht; [split; [auto|constructor]|]. split; [discriminate|]. constructor; [eapply HPt; [exact D|apply Ht; now left]|].
    apply IH. intros z Hz. apply Ht. now right.
  Qed.

  Ltac just t := unfold described, is_element, is_section; rewrite t; split; [|split; [|split; [|split]]]; try (intros []; fail); try (discriminate); intros _.
  Lemma raw_described fuel : forall e h h' x, Cached inp r [] h -> raw inp fuel e h = (h', Ok x) -> described e x.
  Proof.
    induction fuel as [|f IH]; intros e h h' x HC; [discriminate|].
    destruct (raw_step r inp f e h HC) as (h1 & HC1 & [(c0 & Hc & ->)|[_ (ex & ->)]]); [|discriminate].
    assert (HM : forall l h h' xs, Cached inp r [] h -> mapM (raw inp f) l h = (h', Ok xs) -> Forall2 described l xs).
    { clear - IH. intro l. induction l as [|a l IHl]; intros h h' xs HC; cbn [mapM]; [intros [= _ <-]; constructor|].
      unfold mbind. destruct (raw inp f a h) as [h1 [z|ex]] eqn:E1; [|discriminate]. destruct (mapM (raw inp f) l h1) as [h2 [zs|ex]] eqn:E2; [|discriminate].
      intros [= _ <-]. constructor; [eapply IH; eassumption|]. eapply IHl; [|exact E2]. eapply keeping_raw; eassumption. }
    assert (HE : forall v h2, elements (S (length h1)) e h1 = (h2, v) -> Cached inp r [] h2 /\ forall l, v = Ok (Some l) -> tail_at r e l).
    { intros v h2 E. rewrite (ca_len _ _ _ _ HC1) in E. destruct (elements_keeps inp r _ _ [] _ _ _ HC1 (fits_all r e) E) as (K1 & _ & K2 & _). split; [assumption|]. intros l Hl. now apply K2. }
    apply comment_good in Hc.
    unfold raw_rest, mbind, lift, key_or, ret. destruct (n_type (hget r e)) eqn:Ht;
      try (intros [= _ <-]; unfold described, is_element, is_section; rewrite Ht; split; [intros []|split; [|split; [|split]]]; discriminate).
    all: try (destruct (n_key (hget r e)) as [k|] eqn:Ek; [assert (trimmed k) as Hk by (eapply key_good; [exact Ek|congruence])|discriminate]).
    all: try (intros [= _ <-]; just Ht; now constructor).
    all: try (destruct (value_is r HD inp e h1) as (h2 & v & E & _ & Hv); [congruence|assumption|]; rewrite E; intros [= _ <-]; just Ht; constructor; solve [assumption|eapply value_good; eauto]).
    all: try (destruct (items_run2 r HD inp e h1 Ht HC1) as (h2 & l & E & HC2 & Hl); rewrite E; destruct (mapM (raw inp f) l h2) as [h3 [xs|ex]] eqn:E3; [|discriminate];
      intros [= _ <-]; destruct (items_good e l Hl Ht) as [G1 G2]; destruct (members_all item LIST_ITEM l xs (fun _ _ D => proj1 (proj2 (proj2 D))) (HM _ _ _ _ HC2 E3) G2) as [G3 G4];
      just Ht; constructor; auto).
    all: try (destruct (entries_run2 r HD inp e h1 Ht HC1) as (h2 & l & E & HC2 & Hl); rewrite E; destruct (mapM (raw inp f) l h2) as [h3 [xs|ex]] eqn:E3; [|discriminate];
      intros [= _ <-]; destruct (entries_good e l Hl Ht) as [G1 G2]; destruct (members_all entry FIELDSET_ENTRY l xs (fun _ _ D => proj1 (proj2 (proj2 (proj2 D)))) (HM _ _ _ _ HC2 E3) G2) as [G3 G4];
      just Ht; constructor; auto).
    all: destruct (elements (S (length h1)) e h1) as [h2 w] eqn:E; destruct (HE _ _ eq_refl) as [HC2 HT]; destruct w as [[l|]|ex]; try discriminate;
      destruct (mapM (raw inp f) l h2) as [h3 [xs|ex]] eqn:E3; [|discriminate]; intros [= _ <-];
      destruct (elements_good e l (HT l eq_refl)) as (a & b & -> & Ha & Hb); destruct (members_split a b xs (HM _ _ _ _ HC2 E3) Ha Hb) as (els & subs & -> & G1 & G2); just Ht.
    all: try (exists els, subs; auto).
    all: constructor; auto.
  Qed.

  Lemma parsed_document fuel h h' x : Cached inp r [] h -> raw inp fuel 0 h = (h', Ok x) -> document x.
  Proof. intros HC H. apply (raw_described fuel 0 h h' x HC H). apply (doc_root r HD). Qed.
End Parsed.

Section Rewrite.
  Context {inp : text} {loc : locale} {rk : reporter_kind} {src : option text} {c : ctx}.
  Context (HP : parse_context inp loc rk src = Ok c).

  Lemma without_copies : no_section_copies (c_heap c) -> takes_no_sections (c_heap c).
  Proof.
    intros HN e t x He [H1 H2]. destruct (sections_plain HP HN e He). congruence.
  Qed.
  Lemma can_rewrite s o cl : no_section_copies (c_heap c) -> (forall i, hollow_comment (c_heap c) i = false) -> reach c s -> names s o cl 0 -> exists x, snd (raw_of o s) = Ok x.
  Proof.
    intros HN HH Hs Hn. destruct (raw_total HP 0 HN HH) as [x Hx]; [apply (doc_root _ (doc_of_parse inp loc rk src c HP))|].
    exists x. exact (raw_complete HP s o cl 0 x Hs Hn Hx).
  Qed.

  Context (HF : takes_no_sections (c_heap c)).
  Lemma raw_document s o cl x : reach c s -> names s o cl 0 -> snd (raw_of o s) = Ok x -> document x.
  Proof.
    intros Hs Hn Hx. destruct (raw_on HP s o cl 0 Hs Hn) as [HC E]. rewrite E in Hx. destruct (raw inp (S (length (c_heap c))) 0 (c_heap (s_ctx s))) as [h' v] eqn:Er. cbn in Hx. subst v.
    exact (parsed_document HP HF _ _ _ _ HC Er).
  Qed.
  Lemma rewritten s o cl x : reach c s -> names s o cl 0 -> snd (raw_of o s) = Ok x ->
    forall loc' rk' src', exists c', parse_context (canonical x) loc' rk' src' = Ok c' /\
      forall s' o' cl', reach c' s' -> names s' o' cl' 0 -> snd (raw_of o' s') = Ok x.
  Proof.
    intros Hs Hn Hx loc' rk' src'. destruct (round_trip x loc' rk' src' (raw_document s o cl x Hs Hn Hx)) as (c' & H1 & _ & H2). exists c'. auto.
  Qed.
End Rewrite.
