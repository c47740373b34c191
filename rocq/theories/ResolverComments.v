(** ResolverComments: resolution takes comments only from other instructions. *)
From Verif Require Import Base Types Analyzer HeapFacts Resolver.

Section Keeps.
  (** a property kept by the elementary changes the resolver makes *)
  Context (I : heap -> Prop)
    (I_type : forall h e v, n_type (hget h e) = EMPTY_ELEMENT -> I h -> I (hupd h e (set_type v)))
    (I_mirror : forall h e v, I h -> I (hupd h e (set_mirror v)))
    (I_extend : forall h e v, I h -> I (hupd h e (set_extend v)))
    (I_copy : forall h e v, I h -> I (hupd h e (set_copy v)))
    (I_deep : forall h e v, I h -> I (hupd h e (set_deep_resolve v)))
    (I_inherit : forall h e t, I h -> I (inherit_comments h e t)).

  Definition keeps (r : rres heap) : Prop := match r with ROk h | RErr _ h => I h | _ => True end.

  Lemma keeps_mirror h e t : I h -> I (mirror h e t).
  Proof. intro H. unfold mirror. destruct (n_mirror _); auto. Qed.
  Lemma keeps_consolidate h e t : I h -> keeps (consolidate_non_section h e t).
  Proof.
    intro H. unfold consolidate_non_section. apply (I_inherit h e t) in H. set (h' := inherit_comments h e t) in *. clearbody h'.
    destruct (n_type (hget h' e)) eqn:Ee; cbn; try assumption;
      destruct (n_type (hget h' t)); cbn; try assumption; try (apply keeps_mirror); auto; match goal with |- keeps (match ?x with _ => _ end) => destruct x; cbn; auto end.
  Qed.
  Lemma keeps_sections fuel : forall h s t deep, I h ->
    match consolidate_sections fuel h s t deep with Some h' => I h' | None => True end.
  Proof.
    induction fuel as [|f IH]; intros h s t deep H; cbn [consolidate_sections]; [exact Logic.I|].
    apply (I_inherit h s t) in H. set (h' := inherit_comments h s t) in *. clearbody h'.
    destruct (n_elements (hget h' s)) as [|x els]; [now apply keeps_mirror|]. destruct (negb deep); [auto|].
    match goal with |- match fold_left _ ?l _ with _ => _ end => generalize l end. intro l.
    assert (match Some (hupd h' s (set_extend (Some t))) with Some h1 => I h1 | None => True end) as H1 by auto.
    revert H1. generalize (Some (hupd h' s (set_extend (Some t)))). induction l as [|y l IHl]; intros o Ho; cbn [fold_left]; [exact Ho|].
    apply IHl. destruct o as [h1|]; [now apply IH|exact Logic.I].
  Qed.
  Lemma keeps_fields fuel tbl : forall h e prev, I h -> keeps (resolve_non_section fuel tbl h e prev).
  Proof.
    induction fuel as [|f IH]; intros h e prev H; cbn [resolve_non_section]; [exact Logic.I|].
    destruct (mem e prev); [exact H|]. destruct (template_of h tbl e) as [t|]; [|exact Logic.I].
    assert (keeps (if n_copy (hget h t) then resolve_non_section f tbl h t (prev ++ [e]) else ROk h)) as H1 by (destruct (n_copy (hget h t)); [auto|exact H]).
    destruct (if n_copy (hget h t) then _ else _) as [h1|x h1| |]; try exact H1.
    pose proof (keeps_consolidate h1 e t H1) as H2. destruct (consolidate_non_section h1 e t); try exact H2. cbn. auto.
  Qed.
  Lemma keeps_section fuel tbl : forall h s prev, I h -> keeps (resolve_section fuel tbl h s prev).
  Proof.
    induction fuel as [|f IH]; intros h s prev H; cbn [resolve_section]; [exact Logic.I|].
    destruct (mem s prev); [exact H|].
    match goal with |- keeps (match ?x with _ => _ end) => assert (keeps x) as H1 end.
    { destruct (n_deep_resolve (hget h s)); [|exact H].
      assert (forall l acc, keeps acc -> keeps (fold_left (fun acc e =>
                         match acc with
                         | ROk h' =>
                             if itype_eqb (n_type (hget h' e)) SECTION &&
                                (n_copy (hget h' e) || n_deep_resolve (hget h' e))
                             then resolve_section f tbl h' e (prev ++ [s])
                             else ROk h'
                         | r => r
                         end) l acc)) as G.
      { induction l as [|x l IHl]; intros acc Ha; cbn [fold_left]; [exact Ha|]. apply IHl.
        destruct acc as [h1|? ?| |]; try exact Ha. destruct (_ && _); [now apply IH|exact Ha]. }
      specialize (G (n_elements (hget h s)) (ROk h) H). destruct (fold_left _ _ _); try exact G. cbn. apply I_deep. exact G. }
    match goal with |- keeps (match ?x with _ => _ end) => destruct x as [h1|x0 h1| |]; try exact H1 end.
    destruct (n_copy (hget h1 s)); [|exact H1]. destruct (template_of h1 tbl s) as [t|]; [|exact Logic.I].
    match goal with |- keeps (match ?x with _ => _ end) => assert (keeps x) as H2 end.
    { destruct (_ || _); [now apply IH|exact H1]. }
    match goal with |- keeps (match ?x with _ => _ end) => destruct x as [h2|x0 h2| |]; try exact H2 end.
    pose proof (keeps_sections (S (length h2)) h2 s t (n_deep_copy (hget h2 s)) H2) as H3.
    destruct (consolidate_sections _ _ _ _ _); [|exact Logic.I]. cbn. auto.
  Qed.
  Lemma keeps_table nf r1 tbl h : (forall h e, I h -> keeps (r1 h e)) -> I h -> keeps (resolve_table nf r1 tbl h).
  Proof.
    intros Hr H. unfold resolve_table. assert (keeps (ROk h)) as H0 by exact H. clear H. revert H0. generalize (ROk h).
    induction tbl as [|[k [tg o]] tbl IH]; intros acc Ha; cbn [fold_left]; [exact Ha|]. apply IH. clear IH.
    destruct acc as [h1|? ?| |]; try exact Ha. cbn [fst snd]. destruct o as [x|]; [|exact Ha].
    revert Ha. generalize (ROk h1). induction tg as [|t tg IHt]; intros acc Ha; cbn [fold_left]; [exact Ha|]. apply IHt.
    destruct acc as [h2|? ?| |]; try exact Ha. destruct (n_copy (hget h2 t)); [now apply Hr|exact Ha].
  Qed.
  Lemma index_heap fuel : forall h tbls s x h', index fuel h tbls s = RErr x h' -> h' = h.
  Proof.
    induction fuel as [|f IH]; intros h tbls s x h'; cbn [index]; [discriminate|].
    assert (forall tbl e x h', index_candidate h tbl e = RErr x h' -> h' = h) as Hc.
    { intros tbl e y h1. unfold index_candidate. destruct (assoc _ _) as [[tg o]|]; [|discriminate].
      destruct (match n_template _ with Some _ => _ | None => _ end); [discriminate|]. destruct o; [|discriminate]. now intros [= _ <-]. }
    assert (forall l acc, (forall x h', acc = RErr x h' -> h' = h) -> forall x h',
      fold_left (fun acc e =>
        match acc with
        | ROk (ts, tn) =>
            if itype_eqb (n_type (hget h e)) SECTION then
              match index f h (ts, tn) e with
              | ROk (ts', tn') =>
                  match index_candidate h ts' e with
                  | ROk ts'' => ROk (ts'', tn')
                  | RErr x y => RErr x y | RKey => RKey | RFuel => RFuel
                  end
              | r => r
              end
            else
              match index_candidate h tn e with
              | ROk tn' => ROk (ts, tn')
              | RErr x y => RErr x y | RKey => RKey | RFuel => RFuel
              end
        | r => r
        end) l acc = RErr x h' -> h' = h) as G.
    { induction l as [|e l IHl]; intros acc Ha y h1; cbn [fold_left]; [apply Ha|]. apply IHl.
      destruct acc as [[ts tn]|? ?| |]; try exact Ha. clear y h1. intros y h1. destruct (itype_eqb _ _).
      - destruct (index f h (ts, tn) e) as [[ts' tn']|? ?| |] eqn:Ei; try discriminate.
        + destruct (index_candidate h ts' e) eqn:Ec; try discriminate. intros [= <- <-]. eapply Hc; eassumption.
        + intros [= <- <-]. eapply IH; eassumption.
      - destruct (index_candidate h tn e) eqn:Ec; try discriminate. intros [= <- <-]. eapply Hc; eassumption. }
    apply G. discriminate.
  Qed.
  Theorem keeps_resolve h cs cn : I h -> keeps (resolve h cs cn).
  Proof.
    intro H. unfold resolve. destruct (index _ _ _ _) as [[ts tn]|x h1| |] eqn:Ei; try exact Logic.I.
    - assert (keeps (resolve_table PNonSectionNotFound (fun h0 e => resolve_non_section (S (length h)) tn h0 e []) tn h)) as H1
        by (apply keeps_table; [intros; now apply keeps_fields|assumption]).
      destruct (resolve_table PNonSectionNotFound _ tn h) as [h1|? ?| |]; try exact H1.
      apply keeps_table; [intros; now apply keeps_section|assumption].
    - apply index_heap in Ei. subst h1. exact H.
  Qed.
End Keeps.

(** every comment list comes from some instruction of the document *)
Definition comments_from (h0 h : heap) : Prop := forall i, exists k, n_comments (hget h i) = n_comments (hget h0 k).

Theorem resolve_comments h0 cs cn : keeps (comments_from h0) (resolve h0 cs cn).
Proof.
  assert (forall h e f, (forall n, n_comments (f n) = n_comments n) -> comments_from h0 h -> comments_from h0 (hupd h e f)) as K.
  { intros h e f Hf H i. destruct (Nat.eq_dec e i) as [->|Hne].
    - destruct (Nat.lt_ge_cases i (length h)) as [Hi|Hi].
      + unfold hupd. rewrite hget_upd_eq by assumption. rewrite Hf. apply H.
      + unfold hupd. assert (hget (upd h i f) i = hget h i) as ->.
        { unfold hget. rewrite !nth_overflow; [reflexivity|lia|rewrite upd_length; lia]. }
        apply H.
    - unfold hupd. rewrite hget_upd_neq by assumption. apply H. }
  apply keeps_resolve; try (intros; apply K; [reflexivity|assumption]); try (intros; apply K; [reflexivity|assumption]).
  - intros h e t H. unfold inherit_comments. destruct (n_comments (hget h t)) as [cs'|] eqn:E; [|assumption].
    destruct (n_comments (hget h e)); [assumption|]. intro i. destruct (Nat.eq_dec e i) as [->|Hne].
    + destruct (Nat.lt_ge_cases i (length h)) as [Hi|Hi].
      * unfold hupd. rewrite hget_upd_eq by assumption. cbn. rewrite <- E. apply H.
      * unfold hupd. assert (hget (upd h i (set_comments (Some cs'))) i = hget h i) as ->.
        { unfold hget. rewrite !nth_overflow; [reflexivity|lia|rewrite upd_length; lia]. }
        apply H.
    + unfold hupd. rewrite hget_upd_neq by assumption. apply H.
  - intro i. exists i. reflexivity.
Qed.

(** own comments stay, and only empty elements become something else *)
Definition kept_parts (h0 h : heap) : Prop := forall i,
  (n_comments (hget h0 i) <> None -> n_comments (hget h i) = n_comments (hget h0 i)) /\
  (n_type (hget h i) = n_type (hget h0 i) \/ n_type (hget h0 i) = EMPTY_ELEMENT).

Lemma hget_hupd h e f i : hget (hupd h e f) i = if Nat.eqb e i && Nat.ltb i (length h) then f (hget h i) else hget h i.
Proof.
  unfold hupd. destruct (Nat.eqb_spec e i) as [->|Hne]; cbn [andb]; [|now rewrite hget_upd_neq]. destruct (Nat.ltb_spec i (length h)) as [Hi|Hi].
  - now rewrite hget_upd_eq.
  - unfold hget. rewrite !nth_overflow; [reflexivity|lia|rewrite upd_length; lia].
Qed.
Theorem resolve_parts h0 cs cn : keeps (kept_parts h0) (resolve h0 cs cn).
Proof.
  assert (forall h e f, (forall n, n_comments (f n) = n_comments n /\ n_type (f n) = n_type n) -> kept_parts h0 h -> kept_parts h0 (hupd h e f)) as K.
  { intros h e f Hf H i. rewrite hget_hupd. destruct (_ && _); [|apply H]. destruct (Hf (hget h i)) as [-> ->]. apply H. }
  apply keeps_resolve; try (intros; apply K; [now split|assumption]).
  - intros h e v He H i. rewrite hget_hupd. destruct (Nat.eqb_spec e i) as [->|]; cbn [andb]; [|apply H]. destruct (Nat.ltb _ _); [|apply H].
    destruct (H i) as [H1 H2]. split; [exact H1|]. right. destruct H2; congruence.
  - intros h e t H. unfold inherit_comments. destruct (n_comments (hget h t)) as [cs'|] eqn:E; [|assumption].
    destruct (n_comments (hget h e)) eqn:E2; [assumption|]. intro i. rewrite hget_hupd. destruct (Nat.eqb_spec e i) as [->|]; cbn [andb]; [|apply H]. destruct (Nat.ltb _ _); [|apply H].
    destruct (H i) as [H1 H2]. split; [|exact H2]. intro H3. specialize (H1 H3). congruence.
  - intro i. auto.
Qed.
