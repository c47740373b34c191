(** RawDoc: raw() of the document meets all sections, so that it fails if one of them is nothing but a copy. *)
From Coq Require Import Relations.
From Verif Require Import Base Types Scan Messages Analyzer HeapFacts AnalyzerInv SpecTree AnalyzerTree PropReadProofs PropAnalysisProofs Resolver SpecResolve ResolverIndex ResolverFinal ResolverLinks
  Reporter Errors Context Elements SpecRead SpecApi SpecQuery SpecLoad SpecLinks SpecRaw SpecNormal Reads ReadLinks ApiDoc ApiInv ApiState
  QueryProofs LoadProofs Session SessionInv SessionRun CopiesProofs ParseOutcome PropParseProofs PropCopiesProofs RawProofs PropRawProofs InheritProofs.

Section Raw.
  Context (r : heap) (HD : Doc r) (inp : text).
  Notation Cached := (Cached inp r).

  (** [y] is [e] or one of the sections in it *)
  Inductive inside (e : nat) : nat -> Prop :=
  | in_self : inside e e
  | in_deeper x y : In x (own_elements r e) -> inside x y -> inside e y.

  Lemma elements_tails e h h' v : Cached [] h -> elements (S (length h)) e h = (h', v) ->
    Cached [] h' /\ forall l, v = Ok (Some l) -> n_mirror (hget r e) = None /\ exists k, l = k ++ own_elements r e.
  Proof.
    intros HC E. rewrite (ca_len _ _ _ _ HC) in E. destruct (elements_keeps inp r _ _ [] _ _ _ HC (fits_all r e) E) as (K1 & _ & K2 & _). split; [assumption|].
    intros l Hl. destruct (K2 l Hl) as [M (k & -> & _)]. split; [assumption|]. now exists k.
  Qed.

  Lemma raw_meets fuel : forall e h h' x, Cached [] h -> raw inp fuel e h = (h', Ok x) -> is_container (hget r e) ->
    forall y, inside e y -> is_section (hget r y) -> n_mirror (hget r y) = None.
  Proof.
    induction fuel as [|f IH]; intros e h h' x HC; [discriminate|].
    destruct (raw_step r inp f e h HC) as (h1 & HC1 & [(c & Hc & ->)|[_ (ex & ->)]]); [|discriminate].
    assert (HM : forall l h h' xs, Cached [] h -> mapM (raw inp f) l h = (h', Ok xs) -> forall z, In z l -> is_container (hget r z) ->
      forall y, inside z y -> is_section (hget r y) -> n_mirror (hget r y) = None).
    { clear - IH. intro l. induction l as [|a l IHl]; intros h h' xs HC; cbn [mapM]; [intros _ z []|].
      unfold mbind. destruct (raw inp f a h) as [h1 [z|ex]] eqn:E1; [|discriminate]. destruct (mapM (raw inp f) l h1) as [h2 [zs|ex]] eqn:E2; [|discriminate].
      intros _ b [<-|Hb] Hz; [eapply IH; eassumption|]. eapply (IHl h1 h2 zs); try eassumption. eapply keeping_raw; eassumption. }
    assert (HE : forall l h2 h3 xs, elements (S (length h1)) e h1 = (h2, Ok (Some l)) -> mapM (raw inp f) l h2 = (h3, Ok xs) ->
      forall y, inside e y -> is_section (hget r y) -> n_mirror (hget r y) = None).
    { intros l h2 h3 xs E E3 y Hy Hs. destruct (elements_tails e h1 h2 _ HC1 E) as [HC2 K]. destruct (K l eq_refl) as [H0 (k & ->)].
      destruct Hy as [|z y Hz Hy]; [assumption|]. destruct (doc_elements r HD e z Hz) as (_ & [He|He] & _).
      - inversion Hy as [|w y' Hw Hy']; subst; [unfold is_element, is_section in *; rewrite Hs in He; destruct He|].
        exfalso. pose proof (doc_own r HD z w (or_introl Hw)) as Hp. destruct (doc_elements r HD z w Hw) as (W1 & W2 & _).
        destruct w as [|w]; [rewrite (doc_top r HD) in Hp; discriminate|]. destruct (doc_parent r HD (S w)) as (p & P1 & _ & _ & P4 & _); [lia|].
        assert (p = z) as -> by congruence. specialize (P4 W2). unfold is_container, is_element in *. destruct P4 as [P4|P4]; rewrite P4 in He; destruct He.
      - eapply HM; [exact HC2|exact E3|apply in_or_app; right; exact Hz|now right|eassumption|assumption]. }
    unfold raw_rest, mbind, lift, key_or, ret, is_container. intros E [Ht|Ht]; rewrite Ht in E.
    - destruct (elements (S (length h1)) e h1) as [h2 [[l|]|ex]] eqn:E1; try discriminate.
      destruct (mapM (raw inp f) l h2) as [h3 [xs|ex]] eqn:E3; [|discriminate]. eapply HE; [reflexivity|exact E3].
    - destruct (n_key (hget r e)) as [kk|]; [|discriminate].
      destruct (elements (S (length h1)) e h1) as [h2 [[l|]|ex]] eqn:E1; try discriminate.
      destruct (mapM (raw inp f) l h2) as [h3 [xs|ex]] eqn:E3; [|discriminate]. eapply HE; [reflexivity|exact E3].
  Qed.
End Raw.

Section Parsed.
  Context {inp : text} {loc : locale} {rk : reporter_kind} {src : option text} {c : ctx} (HP : parse_context inp loc rk src = Ok c).
  Local Notation r := (c_heap c).
  Let HD : Doc r := doc_of_parse inp loc rk src c HP.

  Lemma in_parent x p : n_parent (hget r x) = Some p -> is_section (hget r x) -> In x (own_elements r p).
  Proof.
    intros Hp Hx. destruct (parsed_heaps HP) as (st & lc & Ha & HA & Hr & HR). pose proof (document_is_tree _ _ _ Ha) as (T1 & T2 & T3 & T4 & T5).
    assert (x < length r) as Lx. { destruct (Nat.lt_ge_cases x (length r)) as [|L]; [assumption|]. unfold hget in Hp. rewrite nth_overflow in Hp by assumption. discriminate. }
    rewrite (res_len _ _ HR) in Lx. assert (n_parent (hget (a_heap st) x) = Some p) as Hp0. { rewrite <- Hp. symmetry. apply (res_fields _ _ HR x). }
    assert (0 < x) as X0. { destruct x; [pose proof (doc_top r HD); congruence|lia]. }
    destruct (T4 x ltac:(lia)) as (q & Q1 & Q2 & _). assert (q = p) as -> by congruence.
    unfold own_elements. replace (n_elements (hget r p)) with (n_elements (hget (a_heap st) p)) by (symmetry; apply (res_fields _ _ HR p)).
    destruct (T5 p ltac:(lia)) as (E1 & _). rewrite E1. apply filter_In. split; [apply in_seq; lia|].
    rewrite Hp0, Nat.eqb_refl. cbn [andb]. apply (section_res (a_heap st) r HR) in Hx. rewrite Hx. reflexivity.
  Qed.
  Lemma inside_own e x y : inside r e x -> In y (own_elements r x) -> inside r e y.
  Proof. induction 1 as [e|e z x Hz _ IH]; intro Hy; [eapply in_deeper; [exact Hy|constructor]|eapply in_deeper; [exact Hz|auto]]. Qed.
  Lemma all_inside x : is_section (hget r x) -> inside r 0 x.
  Proof.
    induction x as [x IH] using (well_founded_induction lt_wf). intro Hs. assert (x < length r) as Lx.
    { destruct (Nat.lt_ge_cases x (length r)) as [|L]; [assumption|]. unfold hget, is_section in Hs. rewrite nth_overflow in Hs by assumption. discriminate. }
    assert (0 < x) as X0. { destruct x; [|lia]. pose proof (proj1 (proj2 (doc_root r HD))). congruence. }
    destruct (doc_parent r HD x) as (p & P1 & P2 & _ & P3 & _); [lia|]. pose proof (in_parent x p P1 Hs) as Hi. apply (inside_own 0 p x); [|assumption].
    destruct (P3 (or_intror Hs)) as [K|K]; [|now apply IH].
    destruct p as [|p]; [constructor|]. exfalso. destruct (doc_parent r HD (S p)) as (q & _ & _ & D & _); [lia|contradiction].
  Qed.

  (** raw() of a document with a section that is nothing but a copy fails, whatever was called before *)
  Lemma document_unmirrored s o cl x : reach c s -> names s o cl 0 -> snd (raw_of o s) = Ok x -> no_mirrored_sections r.
  Proof.
    intros Hs Hn Hx e m He Hm. destruct (raw_on HP s o cl 0 Hs Hn) as [HC E]. rewrite E in Hx. destruct (raw inp (S (length r)) 0 (c_heap (s_ctx s))) as [h' v] eqn:Er. cbn in Hx. subst v.
    unfold mirrors in Hm. rewrite (raw_meets r HD inp _ 0 _ _ _ HC Er) with (y := e) in Hm; [discriminate|left; apply (doc_root r HD)|now apply all_inside|assumption].
  Qed.
  Lemma document_only s o cl x : (forall e, ends r e) -> reach c s -> names s o cl 0 -> (snd (raw_of o s) = Ok x <-> raw_tree inp r 0 x).
  Proof.
    intros HE Hs Hn. split; [|now apply (raw_complete HP s o cl 0 x)]. intro Hx. exact (raw_only HP s o cl 0 x HE (document_unmirrored s o cl x Hs Hn Hx) Hs Hn Hx).
  Qed.
  Lemma document_same s s' o o' cl cl' x : (forall e, ends r e) -> reach c s -> reach c s' -> names s o cl 0 -> names s' o' cl' 0 ->
    (snd (raw_of o s) = Ok x <-> snd (raw_of o' s') = Ok x).
  Proof. intros HE Hs Hs' Hn Hn'. now rewrite (document_only s o cl x HE Hs Hn), (document_only s' o' cl' x HE Hs' Hn'). Qed.
End Parsed.
