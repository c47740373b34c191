(** ResolverLinks: the links between sections that resolution creates follow the copies and merges of
    the document. *)
From Coq Require Import Relations.
From Verif Require Import Base Types Scan Analyzer TokenStep HeapFacts AnalyzerInv AnalyzerLoop SpecTree AnalyzerTree
  AnalyzerFinal AnalyzerCopies Resolver SpecResolve ResolverIndex ResolverFields ResolverSections ResolverFinal SpecLinks.

Lemma hupd_cases h e f i : hget (hupd h e f) i = hget h i \/ i = e /\ hget (hupd h e f) i = f (hget h e).
Proof.
  destruct (Nat.eq_dec e i) as [<-|Hne]; [|left; now apply hget_set_neq].
  destruct (Nat.lt_ge_cases e (length h)) as [He|He].
  - right. split; [reflexivity|]. unfold hupd. now rewrite hget_upd_eq.
  - left. unfold hget. rewrite !nth_overflow; [reflexivity|lia|rewrite hupd_length; lia].
Qed.

Section Links.
  Context (h0 : heap) (cs cn : list (text * list nat)) (HA : Analysed h0 cs cn).
  Notation R := (clos_trans nat (draws_on h0)).

  Definition sec (i : nat) : Prop := i < length h0 /\ ncls (hget h0 i) = CSec.
  Definition link_ok (i : nat) (n : node) : Prop :=
    sec i -> (forall m, n_mirror n = Some m -> sec m /\ R i m) /\ (forall t, n_extend n = Some t -> sec t /\ R i t).
  (** own comments, or those of a section it draws on *)
  Definition comment_ok (i : nat) (n : node) : Prop :=
    sec i -> n_comments n = n_comments (hget h0 i) \/
      n_comments (hget h0 i) = None /\ exists k, sec k /\ R i k /\ n_comments (hget h0 k) <> None /\ n_comments n = n_comments (hget h0 k).
  Record Links (h : heap) : Prop := { lk_text : same_text h0 h; lk_ok : forall i, link_ok i (hget h i); lk_com : forall i, comment_ok i (hget h i) }.

  Lemma links_upd h e f : Links h -> (forall n, text_part (f n) = text_part n) -> link_ok e (f (hget h e)) -> comment_ok e (f (hget h e)) -> Links (hupd h e f).
  Proof.
    intros [[H1 H2] H3 H4] Hf He Hc. split.
    - split; [now rewrite hupd_length|]. intro i. destruct (hupd_cases h e f i) as [->|[-> ->]]; [apply H2|]. rewrite Hf. apply H2.
    - intro i. destruct (hupd_cases h e f i) as [->|[-> ->]]; [apply H3|assumption].
    - intro i. destruct (hupd_cases h e f i) as [->|[-> ->]]; [apply H4|assumption].
  Qed.
  Lemma links_same h e f : Links h -> (forall n, text_part (f n) = text_part n) ->
    (forall n, n_mirror (f n) = n_mirror n /\ n_extend (f n) = n_extend n /\ n_comments (f n) = n_comments n) -> Links (hupd h e f).
  Proof.
    intros H Hf Hg. apply links_upd; try assumption; unfold link_ok, comment_ok; destruct (Hg (hget h e)) as (G1 & G2 & G3); rewrite ?G1, ?G2, ?G3; apply H.
  Qed.
  Lemma links_inherit h e t : Links h -> sec t -> R e t -> Links (inherit_comments h e t).
  Proof.
    intros H Ht Hr. unfold inherit_comments. destruct (n_comments (hget h t)) as [l|] eqn:Et; [|assumption]. destruct (n_comments (hget h e)) eqn:Ee; [assumption|].
    apply links_upd; [assumption|reflexivity|exact (lk_ok h H e)|]. intro He. cbn. right.
    destruct (lk_com h H e He) as [E|(_ & k & _ & _ & K & E)]; [|congruence]. split; [congruence|].
    destruct (lk_com h H t Ht) as [E'|(_ & k & K1 & K2 & K3 & E')].
    - exists t. repeat split; try assumption; try apply Ht; congruence.
    - exists k. split; [assumption|]. split; [eapply t_trans; eassumption|]. split; [assumption|congruence].
  Qed.
  Lemma links_mirror h s t : Links h -> sec t -> R s t -> Links (mirror h s t).
  Proof.
    intros H Ht Hr. unfold mirror. destruct (n_mirror (hget h t)) as [m|] eqn:Em; apply links_upd; try assumption; try reflexivity; try exact (lk_com h H s); intro Hs; cbn; split.
    - intros x [= <-]. destruct (lk_ok h H t Ht) as [G _]. destruct (G m Em). split; [assumption|]. eapply t_trans; eassumption.
    - apply (lk_ok h H s Hs).
    - intros x [= <-]. now split.
    - apply (lk_ok h H s Hs).
  Qed.
  Lemma links_extend h s t : Links h -> sec t -> R s t -> Links (hupd h s (set_extend (Some t))).
  Proof.
    intros H Ht Hr. apply links_upd; try assumption; try reflexivity; try exact (lk_com h H s). intro Hs. cbn. split; [apply (lk_ok h H s Hs)|].
    intros x [= <-]. now split.
  Qed.

  (** names of merged subsections *)
  Lemma merge_sections_key h els k s t : In (k, Some (s, t)) (merge_sections h els) -> key_of h s = k.
  Proof.
    unfold merge_sections.
    assert (forall l (mm : merge_map), (forall k s t, In (k, Some (s, t)) mm -> key_of h s = k) ->
      forall k s t, In (k, Some (s, t)) (fold_left (fun mm e =>
        let k := key_of h e in
        if negb (itype_eqb (n_type (hget h e)) SECTION) || opt_is (assoc k mm)
        then assoc_upd k (fun _ => None) None mm
        else assoc_upd k (fun x => x) (Some (e, None)) mm) l mm) -> key_of h s = k) as G.
    { induction l as [|e l IH]; intros mm Hm; cbn [fold_left]; [exact Hm|]. apply IH. cbv zeta. clear k s t. intros k s t.
      destruct (_ || _); intro Hi; apply assoc_upd_was in Hi as [Hi|[-> [Hi|(w & Hi & Hw)]]]; try discriminate; eauto.
      - now injection Hi as -> ->.
      - subst w. eauto. }
    apply G. intros ? ? ? [].
  Qed.
  Lemma merge_templates_key h els mm0 : (forall k s t, In (k, Some (s, t)) mm0 -> key_of h s = k /\ t = None) ->
    forall k s t, In (k, Some (s, Some t)) (merge_templates h els mm0) -> key_of h s = key_of h t.
  Proof.
    intro H0. unfold merge_templates.
    assert (forall l (mm : merge_map), (forall k s t, In (k, Some (s, t)) mm -> key_of h s = k /\ (t = None \/ exists x, t = Some x /\ key_of h x = k)) ->
      forall k s t, In (k, Some (s, t)) (fold_left (fun mm e =>
        let k := key_of h e in
        match assoc k mm with
        | None | Some None => mm
        | Some (Some (s, t)) =>
            if negb (itype_eqb (n_type (hget h e)) SECTION) || opt_is t
            then assoc_upd k (fun _ => None) None mm
            else assoc_upd k (fun _ => Some (s, Some e)) None mm
        end) l mm) -> key_of h s = k /\ (t = None \/ exists x, t = Some x /\ key_of h x = k)) as G.
    { induction l as [|e l IH]; intros mm Hm; cbn [fold_left]; [exact Hm|]. apply IH. cbv zeta. intros k s t.
      destruct (assoc (key_of h e) mm) as [[[s' t']|]|] eqn:Ea; [|apply Hm|apply Hm].
      destruct (_ || _); intro Hi; apply assoc_upd_was in Hi as [Hi|[-> [Hi|(w & Hi & Hw)]]]; try discriminate; eauto.
      injection Hw as -> ->. split; [|right; eauto]. apply assoc_in in Ea. apply Hm in Ea. tauto. }
    intros k s t Hi. apply G in Hi.
    - destruct Hi as [E [Hi|(x & [= <-] & Hx)]]; [discriminate|congruence].
    - intros k' s' t' Hi'. apply H0 in Hi' as [E ->]. auto.
  Qed.
  Lemma mergers_key h els tels s t : In (s, t) (mergers (merge_templates h tels (merge_sections h els))) -> key_of h s = key_of h t.
  Proof.
    unfold mergers. rewrite in_flat_map. intros ([k v] & Hin & Hp). cbn [snd] in Hp.
    destruct v as [[s' [t'|]]|]; try destruct Hp as [[= -> ->]|[]]; try contradiction.
    revert Hin. apply merge_templates_key. intros k' s' t' Hi. split; [eapply merge_sections_key; eassumption|].
    now apply merge_sections_in in Hi.
  Qed.

  Lemma sec_text h i : same_text h0 h -> i < length h0 -> n_type (hget h i) = SECTION -> sec i.
  Proof. intros [H1 H2] Hi H. split; [assumption|]. rewrite <- (text_cls _ _ (H2 i)). unfold ncls. now rewrite H. Qed.
  Lemma sec_is i : sec i -> is_section (hget h0 i).
  Proof. intros [_ H]. now apply (kind_cls true). Qed.

  Lemma links_consolidate fuel : forall h s t deep h', Links h -> sec s -> sec t -> R s t -> (deep = true -> merged h0 s t) ->
    consolidate_sections fuel h s t deep = Some h' -> Links h'.
  Proof.
    induction fuel as [|f IH]; intros h s t deep h' H Hs Ht Hr Hd; cbn [consolidate_sections]; [discriminate|].
    apply (fun H => links_inherit h s t H Ht Hr) in H. set (h1 := inherit_comments h s t) in *. clearbody h1. clear h.
    destruct (n_elements (hget h1 s)) as [|x els] eqn:Eel.
    { intros [= <-]. now apply links_mirror. }
    destruct deep; cbn [negb]; [|intros [= <-]; now apply links_extend].
    specialize (Hd eq_refl). rewrite <- Eel.
    pose proof (links_extend h1 s t H Ht Hr) as H2. set (h2 := hupd h1 s (set_extend (Some t))) in *.
    assert (forall p, In p (mergers (merge_templates h2 (n_elements (hget h2 t)) (merge_sections h2 (n_elements (hget h1 s))))) ->
      sec (fst p) /\ sec (snd p) /\ merged h0 (fst p) (snd p)) as Hm.
    { intros [a b] Hp. cbn [fst snd]. pose proof (mergers_key _ _ _ _ _ Hp) as Hk. apply mergers_in in Hp as (P1 & P2 & P3 & P4).
      pose proof (lk_text _ H) as [T0 T1]. pose proof (lk_text _ H2) as T2. pose proof T2 as [_ T2'].
      rewrite (text_elements _ _ (T1 s)) in P1. rewrite (text_elements _ _ (T2' t)) in P3.
      destruct (children_lt h0 cs cn HA s a (proj1 Hs) P1) as (Ha & _ & Hpa & _). destruct (children_lt h0 cs cn HA t b (proj1 Ht) P3) as (Hb & _ & Hpb & _).
      assert (sec a) as Sa by (eapply sec_text; eassumption). assert (sec b) as Sb by (eapply sec_text; eassumption).
      split; [assumption|]. split; [assumption|].
      assert (forall i, key_of h2 i = key_of h0 i) as Ek. { intro i. unfold key_of. specialize (T2' i). unfold text_part in T2'. now replace (n_key (hget h2 i)) with (n_key (hget h0 i)) by congruence. }
      rewrite !Ek in Hk. unfold key_of in Hk.
      assert (forall i, sec i -> n_key (hget h0 i) <> None) as Hkey.
      { intros i [Hi Hc]. destruct i as [|i]. - pose proof (s_doc _ (an_s _ _ _ HA)). congruence.
        - destruct (an_key _ _ _ HA (S i) ltac:(lia)); [congruence|assumption]. }
      eapply mg_inner; try eassumption; try (now apply sec_is).
      specialize (Hkey a Sa) as Ka. specialize (Hkey b Sb) as Kb.
      destruct (n_key (hget h0 a)); [|congruence]. destruct (n_key (hget h0 b)); [|congruence]. now f_equal. }
    revert Hm. generalize (mergers (merge_templates h2 (n_elements (hget h2 t)) (merge_sections h2 (n_elements (hget h1 s))))).
    revert H2. generalize h2. clear h2. intros h2 H2 l. revert h2 H2. induction l as [|[a b] l IHl]; intros h2 H2 Hm; cbn [fold_left].
    - now intros [= <-].
    - destruct (Hm (a, b) ltac:(now left)) as (Ha & Hb & Hab). cbn [fst snd] in *.
      destruct (consolidate_sections f h2 a b true) as [h3|] eqn:E3.
      + apply IHl; [|intros; apply Hm; now right]. eapply IH; [exact H2|exact Ha|exact Hb| |intros _; exact Hab|exact E3]. apply t_step. now right.
      + clear. intro E. exfalso. induction l as [|x l IHl]; cbn [fold_left] in E; [discriminate|auto].
  Qed.

  Context (ts : copy_table) (Hix : indexed h0 cs cn true ts).

  Lemma links_template h s t : same_text h0 h -> sec s -> template_of h ts s = Some t -> template_is true h0 s t /\ sec t.
  Proof.
    intros [H1 H2] Hs Ht. assert (n_template (hget h0 s) <> None) as Hn.
    { unfold template_of in Ht. rewrite (text_template _ _ (H2 s)) in Ht. destruct (n_template (hget h0 s)); congruence. }
    pose proof (template_of_spec h0 cs cn true ts h s Hix (H2 s) (proj1 Hs) (sec_is s Hs) Hn) as G. rewrite Ht in G. split; [assumption|].
    destruct (template_lt _ _ _ _ G) as [_ L]. split; [assumption|]. destruct G as (k & _ & (_ & K & _) & _). now apply (kind_cls true) in K.
  Qed.

  Definition keeps_links (r : rres heap) : Prop := match r with ROk h => Links h | _ => True end.

  Lemma links_resolve fuel : forall h s prev, Links h -> sec s -> keeps_links (resolve_section fuel ts h s prev).
  Proof.
    induction fuel as [|f IH]; intros h s prev H Hs; cbn [resolve_section]; [exact I|].
    destruct (mem s prev); [exact I|].
    match goal with |- keeps_links (match ?x with _ => _ end) => assert (keeps_links x) as H1 end.
    { destruct (n_deep_resolve (hget h s)); [|exact H].
      assert (forall l acc, (forall e, In e l -> e < length h0) -> keeps_links acc -> keeps_links (fold_left (fun acc e =>
                         match acc with
                         | ROk h' =>
                             if itype_eqb (n_type (hget h' e)) SECTION &&
                                (n_copy (hget h' e) || n_deep_resolve (hget h' e))
                             then resolve_section f ts h' e (prev ++ [s])
                             else ROk h'
                         | r => r
                         end) l acc)) as G.
      { induction l as [|x l IHl]; intros acc Hl Ha; cbn [fold_left]; [exact Ha|]. apply IHl; [intros; apply Hl; now right|].
        destruct acc as [h1|? ?| |]; try exact Ha. destruct (itype_eqb (n_type (hget h1 x)) SECTION) eqn:Et; cbn [andb]; [|exact Ha].
        destruct (_ || _); [|exact Ha]. apply IH; [exact Ha|]. apply (sec_text h1); [apply Ha|apply Hl; now left|now apply itype_eqb_eq]. }
      specialize (G (n_elements (hget h s)) (ROk h)). destruct (fold_left _ _ _); try exact I. cbn. apply links_same; [|reflexivity|now repeat split].
      apply G; [|exact H]. intros e He. rewrite (text_elements _ _ (proj2 (lk_text _ H) s)) in He.
      now apply (children_lt h0 cs cn HA s e (proj1 Hs)) in He. }
    match goal with |- keeps_links (match ?x with _ => _ end) => destruct x as [h1|x0 h1| |]; try exact I end.
    destruct (n_copy (hget h1 s)); [|exact H1]. destruct (template_of h1 ts s) as [t|] eqn:Et; [|exact I].
    destruct (links_template h1 s t (lk_text _ H1) Hs Et) as [Ht St].
    match goal with |- keeps_links (match ?x with _ => _ end) => assert (keeps_links x) as H2 end.
    { destruct (_ || _); [now apply IH|exact H1]. }
    match goal with |- keeps_links (match ?x with _ => _ end) => destruct x as [h2|x0 h2| |]; try exact I end.
    destruct (consolidate_sections (S (length h2)) h2 s t (n_deep_copy (hget h2 s))) as [h3|] eqn:E3; [|exact I]. cbn.
    apply links_same; [|reflexivity|now repeat split]. eapply links_consolidate; [exact H2|exact Hs|exact St| | |exact E3].
    - apply t_step. now left.
    - intro Hd. apply mg_copy; [assumption|]. pose proof (proj2 (lk_text _ H2) s) as T. unfold text_part in T. congruence.
  Qed.

  Lemma links_table h : Links h -> keeps_links (resolve_table PSectionNotFound (fun h s => resolve_section (S (length h0)) ts h s []) ts h).
  Proof.
    intro H. unfold resolve_table. assert (keeps_links (ROk h)) as H0 by exact H. clear H. revert H0. generalize (ROk h).
    assert (forall k tg o, In (k, (tg, o)) ts -> forall c, In c tg -> sec c) as Hts.
    { destruct Hix as (_ & _ & I3 & _). intros k tg o Hi c Hc. destruct (I3 _ _ _ Hi) as (_ & Hcc & _). apply Hcc in Hc as (C1 & C2 & _).
      split; [assumption|]. now apply (kind_cls true). }
    revert Hts. generalize ts at 1 3. intro l.
    induction l as [|[k [tg o]] tbl IH]; intros Hts acc Ha; cbn [fold_left]; [exact Ha|]. apply IH; [intros; eapply Hts; [right|]; eassumption|]. clear IH.
    destruct acc as [h1|? ?| |]; try exact Ha. cbn [fst snd]. destruct o as [x|]; [|exact I].
    specialize (Hts k tg (Some x) ltac:(now left)).
    revert Ha. generalize (ROk h1). induction tg as [|t tg IHt]; intros acc Ha; cbn [fold_left]; [exact Ha|].
    apply IHt; [intros; apply Hts; now right|].
    destruct acc as [h2|? ?| |]; try exact Ha. destruct (n_copy (hget h2 t)); [|exact Ha]. apply links_resolve; [exact Ha|]. apply Hts. now left.
  Qed.
End Links.

Theorem resolved_links h0 cs cn h : Analysed h0 cs cn -> resolve h0 cs cn = ROk h -> Links h0 h.
Proof.
  intro HA. unfold resolve. pose proof (index_spec h0 cs cn HA) as Hi.
  destruct (index (S (length h0)) h0 (start_table cs, start_table cn) 0) as [[ts tn]|x h1| |]; try discriminate.
  destruct Hi as [Hts Htn]. pose proof (fields_phase h0 cs cn HA tn Htn) as Hf.
  destruct (resolve_table PNonSectionNotFound _ tn h0) as [h1|x h1| |]; try discriminate.
  destruct Hf as ((Hlen1 & Hd1) & Htx1 & _). intro Hr.
  assert (Links h0 h1) as H1.
  { split; [assumption| |]; intros i [Hi Hc]; destruct (Hd1 i Hi) as [_ E]; rewrite E by (now apply cls_not_elem); [|now left].
    destruct (an_pr _ _ _ HA i Hi) as (P1 & P2 & _). split; intros m Hm; congruence. }
  pose proof (links_table h0 cs cn HA ts Hts h1 H1) as G. rewrite Hr in G. exact G.
Qed.
