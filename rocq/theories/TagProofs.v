(** TagProofs: which lines the reporter tags. *)
From Verif Require Import Base Regex Grammar Types Messages Scan Analyzer TokenStep ScanProofs ScanFacts StepProofs HeapFacts AnalyzerInv AnalyzerLoop StepChange SpecText AnalyzerText AnalyzerTiles AnalyzerBlocks
  AnalyzerLines AnalyzerFinal AnalyzerBounds SpecTree AnalyzerTree Resolver SpecResolve ResolverIndex ResolverFields ResolverSections ResolverFinal ResolverComments NumberOrder
  Reporter Errors Context Faults SpecLookup LookupDoc LookupProofs ReporterFacts ReporterTags ParseErrors ParseContext ParseOutcome SelectProofs PrintDoc PrintProofs PropAnalysisProofs
  SpecSnippet SnippetRows ReporterFree SpecDraw DrawProofs DrawDoc SpecMarks LineOrder.

(** lines [lo] to [hi] exclusive are tagged [t], the others stay *)
Definition sets (s : snip) (lo hi : nat) (t : tag) (s' : snip) : Prop :=
  length s' = length s /\ (forall j, lo <= j < hi -> nth_error s' j = Some (Some t)) /\ (forall j, ~ (lo <= j < hi) -> nth_error s' j = nth_error s j).
Lemma sets_refl s a t : sets s a a t s.
Proof. split; [reflexivity|]. split; [intros; lia|reflexivity]. Qed.
Lemma sets_trans s a b c t s1 s2 : sets s a b t s1 -> sets s1 b c t s2 -> a <= b <= c -> sets s a c t s2.
Proof.
  intros (L1 & I1 & O1) (L2 & I2 & O2) H. split; [congruence|]. split; intros j Hj.
  - destruct (Nat.lt_ge_cases j b); [|apply I2; lia]. rewrite O2 by lia. apply I1. lia.
  - rewrite O2, O1 by lia. reflexivity.
Qed.
Lemma aset_sets s i t s' : aset s i (Some t) = Ok s' -> sets s i (S i) t s'.
Proof.
  unfold aset. destruct (Nat.ltb_spec i (length s)) as [H|H]; [|discriminate]. intros [= <-]. split; [apply upd_length|]. split; intros j Hj; rewrite nth_upd.
  - assert (j = i) as -> by lia. rewrite Nat.eqb_refl. destruct (nth_error s i) eqn:E; [reflexivity|]. apply nth_error_None in E. lia.
  - destruct (Nat.eqb_spec i j); [lia|]. reflexivity.
Qed.
Lemma gap_sets n scan t s s' : tag_gap n scan t s = Ok s' -> sets s scan (scan + n) t s'.
Proof.
  revert scan s. induction n as [|n IH]; intros scan s; cbn [tag_gap].
  - intros [= <-]. rewrite Nat.add_0_r. apply sets_refl.
  - intro E. apply bind_ok in E as (s1 & E1 & E2). apply aset_sets in E1. apply IH in E2. rewrite Nat.add_1_r in E2. replace (scan + S n) with (S scan + n) by lia. apply (sets_trans _ _ (S scan) _ _ s1); auto. lia.
Qed.
Lemma conts_sets a cs t s s' sc : up a (map l_line cs) ->
  foldM (fun (a : snip * nat) l => let '(s, scan) := a in do s <- tag_gap (l_line l - scan) scan t s; do s <- aset s (l_line l) (Some t); Ok (s, scan + (l_line l - scan) + 1)) cs (s, S a) = Ok (s', sc) ->
  sc = S (last (map l_line cs) a) /\ sets s (S a) sc t s'.
Proof.
  revert a s. induction cs as [|l cs IH]; intros a s HU H; cbn [foldM map] in *.
  - injection H as <- <-. split; [reflexivity|apply sets_refl].
  - destruct HU as [HU1 HU2]. apply bind_ok in H as ([s2 sc2] & E & H). apply bind_ok in E as (s1 & E1 & E). apply bind_ok in E as (s3 & E3 & E). assert (s2 = s3) as -> by congruence. assert (sc2 = S (l_line l)) as -> by (injection E as <-; lia). apply IH in H as [-> H]; [|assumption]. rewrite last_cons. split; [reflexivity|].
    apply gap_sets in E1. replace (S a + (l_line l - S a)) with (l_line l) in E1 by lia. apply aset_sets in E3. destruct (up_last _ _ HU2) as [HL _].
    apply (sets_trans _ _ (l_line l) _ _ s1); [assumption| |lia]. apply (sets_trans _ _ (S (l_line l)) _ _ s3); [assumption|assumption|lia].
Qed.
Lemma run_sets ls t s s' a : (forall j l, nth_error ls j = Some l -> l_line l = a + j) -> foldM (fun s l => aset s (l_line l) (Some t)) ls s = Ok s' -> sets s a (a + length ls) t s'.
Proof.
  revert s a. induction ls as [|l ls IH]; intros s a HN H; cbn [foldM length] in *.
  - injection H as <-. rewrite Nat.add_0_r. apply sets_refl.
  - apply bind_ok in H as (s1 & E1 & H). apply aset_sets in E1. rewrite (HN 0 l eq_refl), Nat.add_0_r in E1.
    apply (IH s1 (S a)) in H; [|intros j l0 Hj; rewrite (HN (S j) l0 Hj); lia]. replace (a + S (length ls)) with (S a + length ls) by lia.
    apply (sets_trans _ _ (S a) _ _ s1); auto. lia.
Qed.

(** [hi] is just behind the last number satisfying [P] *)
Definition tops (P : nat -> Prop) (hi : nat) : Prop := (exists k, P k /\ hi = S k) /\ forall k, P k -> k < hi.
Lemma tops_iff (P Q : nat -> Prop) hi : (forall k, P k <-> Q k) -> tops P hi -> tops Q hi.
Proof. intros H [(k & Hk & E) Hb]. split; [exists k; split; [now apply H|assumption]|]. intros m Hm. apply Hb. now apply H. Qed.
Lemma sorted_split l1 y l2 : sorted (l1 ++ y :: l2) -> forall x, In x l1 -> x < y.
Proof.
  induction l1 as [|z l1 IH]; intros H x Hx; [destruct Hx|]. cbn in H. inversion_clear H as [|? ? Hs Hz]. destruct Hx as [<-|Hx]; [|auto]. apply Hz, in_or_app. right. now left.
Qed.

Lemma last_among {A} (l : list A) d : last l d = d \/ In (last l d) l.
Proof. revert d. induction l as [|x l IH]; intro d; [now left|]. rewrite last_cons. right. destruct (IH x) as [->|H]; [now left|now right]. Qed.

Section Tags.
  Context {inp : text} {loc : locale} {rk : reporter_kind} {src : option text} {c : ctx} (HP : parse_context inp loc rk src = Ok c).
  Local Notation h := (c_heap c).
  Local Notation nd x := (hget h x).
  Let L : LDoc inp h := parsed_doc HP.
  Let SI : SInv h := ld_s _ _ L.

  (** * Children *)

  Lemma child_listed e y : n_parent (nd y) = Some e -> In y (n_elements (nd e)) /\ sec_like (nd e) \/ ncls (nd e) = CElem /\ (In y (olist (n_items (nd e))) \/ In y (olist (n_entries (nd e)))).
  Proof.
    intro Hy. destruct (parent_range _ SI _ _ Hy) as (R & Lt & Hp). assert (e < length h) as He by lia. rewrite (ld_elems _ _ L e He), (ld_items _ _ L e He), (ld_entries _ _ L e He), !in_ids.
    unfold placed in Hp. unfold elem_of, item_of, entry_of, has_parent, is_cls. rewrite Hy, Nat.eqb_refl. cbn [andb].
    destruct (ncls (nd y)); try contradiction; destruct Hp as [Hp _]; cbn [nclass_eqb orb]; (left; split; [split; [lia|reflexivity]|assumption]) || (right; split; [assumption|]; (left; split; [lia|reflexivity]) || (right; split; [lia|reflexivity])).
  Qed.
  Lemma elem_child e y : e < length h -> In y (n_elements (nd e)) -> n_parent (nd y) = Some e.
  Proof.
    intros He. rewrite (ld_elems _ _ L e He), in_ids. unfold elem_of, has_parent. intros [_ H]. apply andb_true_iff in H as [H _]. destruct (n_parent (nd y)) as [q|]; [|discriminate]. apply Nat.eqb_eq in H. congruence.
  Qed.
  Lemma item_child e y : e < length h -> In y (olist (n_items (nd e))) -> n_parent (nd y) = Some e /\ n_type (nd y) = LIST_ITEM.
  Proof.
    intros He. rewrite (ld_items _ _ L e He), in_ids. unfold item_of, has_parent, is_cls. intros [_ H]. apply andb_true_iff in H as [H1 H]. destruct (n_parent (nd y)) as [q|]; [|discriminate]. apply Nat.eqb_eq in H1. split; [congruence|].
    unfold ncls in H. destruct (n_type (nd y)); (reflexivity || discriminate).
  Qed.
  Lemma entry_child e y : e < length h -> In y (olist (n_entries (nd e))) -> n_parent (nd y) = Some e /\ n_type (nd y) = FIELDSET_ENTRY.
  Proof.
    intros He. rewrite (ld_entries _ _ L e He), in_ids. unfold entry_of, has_parent, is_cls. intros [_ H]. apply andb_true_iff in H as [H1 H]. destruct (n_parent (nd y)) as [q|]; [|discriminate]. apply Nat.eqb_eq in H1. split; [congruence|].
    unfold ncls in H. destruct (n_type (nd y)); (reflexivity || discriminate).
  Qed.

  Lemma own_tops e : 0 < e < length h -> tops (own_line h e) (S (last (map l_line (rest (nd e))) (n_line (nd e)))).
  Proof.
    intro He. destruct (up_last _ _ (own_up HP e He)) as [U1 U2]. split.
    - eexists. split; [|reflexivity]. unfold own_line. destruct (last_among (map l_line (rest (nd e))) (n_line (nd e))) as [->|Hx]; [now left|]. right. apply in_map_iff in Hx as (y & Ey & Hy). eauto.
    - intros k [->|(l & Hl & ->)]; [lia|]. specialize (U2 _ (in_map l_line _ _ Hl)). lia.
  Qed.
  (** no children *)
  Lemma lone_lines e : (forall y, n_parent (nd y) <> Some e) -> forall k, own_line h e k <-> line_of h e k.
  Proof. intros H k. rewrite line_child. split; [now left|]. intros [Hk|(y & Hy & _)]; [assumption|]. destruct (H _ Hy). Qed.

  (** lines of [e] and of those of its children that are in [l] *)
  Definition upto (g : heap) (e : nat) (l : list nat) (k : nat) : Prop := own_line g e k \/ exists y, In y l /\ line_of g y k.
  Lemma upto_next e l1 y hi : (forall x, In x l1 -> n_parent (nd x) = Some e /\ x < y) -> n_parent (nd y) = Some e -> 0 < e -> tops (upto h e l1) hi -> hi <= n_line (nd y).
  Proof.
    intros Hl Hy He [(k & Hk & ->) _]. destruct Hk as [Hk|(x & Hx & Hk)].
    - destruct (parent_range _ SI _ _ Hy) as (R & Lt & _). apply (own_before HP e y k He); [lia|assumption].
    - destruct (Hl x Hx) as [Hp Hlt]. exact (line_before HP e x y k Hp Hy Hlt Hk).
  Qed.
  Lemma upto_more e l1 y hi hi' : tops (upto h e l1) hi -> hi <= n_line (nd y) -> n_line (nd y) < hi' -> tops (line_of h y) hi' -> tops (upto h e (l1 ++ [y])) hi'.
  Proof.
    intros [_ B] Hle Hlt [(k & Hk & ->) B']. split.
    - exists k. split; [|reflexivity]. right. exists y. split; [apply in_or_app; right; now left|assumption].
    - intros m [Hm|(x & Hx & Hm)].
      + assert (m < hi) by (apply B; now left). lia.
      + apply in_app_or in Hx as [Hx|[<-|[]]]; [|auto]. assert (m < hi) by (apply B; right; eauto). lia.
  Qed.
  Lemma upto_all e l : (forall y, In y l <-> n_parent (nd y) = Some e) -> forall k, upto h e l k <-> line_of h e k.
  Proof. intros H k. rewrite line_child. unfold upto. split; (intros [Hk|(y & Hy & Hk)]; [now left|right; exists y; split; [now apply H|assumption]]). Qed.
  Lemma line_self e : line_of h e (n_line (nd e)).
  Proof. exists e. split; now left. Qed.

  Lemma tag_conts e t s s' sc : 0 < e < length h -> n_lines (nd e) = None -> n_end (nd e) = None -> tag_continuations (nd e) t s = Ok (s', sc) ->
    tops (own_line h e) sc /\ sets s (S (n_line (nd e))) sc t s'.
  Proof.
    intros He H1 H2 H. pose proof (own_tops e He) as HT. pose proof (own_up HP e He) as HU. unfold rest in HT, HU. rewrite H1, H2, !app_nil_r in HT, HU. unfold tag_continuations in H.
    rewrite Nat.add_1_r in H. destruct (n_conts (nd e)) as [cs|].
    - apply conts_sets in H as [-> H]; [|assumption]. auto.
    - injection H as <- <-. split; [exact HT|apply sets_refl].
  Qed.
  Lemma tag_kids e ids t s s' sc : 0 < e < length h -> sorted ids -> (forall y, In y ids -> n_parent (nd y) = Some e /\ (n_type (nd y) = LIST_ITEM \/ n_type (nd y) = FIELDSET_ENTRY)) ->
    foldM (fun (a : snip * nat) i => let '(s, scan) := a in let x := nd i in
        do s <- tag_gap (n_line x - scan) scan t s; do s <- aset s (n_line x) (Some t); tag_continuations x t s) ids (s, n_line (nd e) + 1) = Ok (s', sc) ->
    rest (nd e) = [] -> tops (upto h e ids) sc /\ sets s (S (n_line (nd e))) sc t s'.
  Proof.
    intros He Hs Hk H Hr. assert (forall l2 l1 s1 hi, ids = l1 ++ l2 -> tops (upto h e l1) hi -> S (n_line (nd e)) <= hi -> sets s (S (n_line (nd e))) hi t s1 ->
      foldM (fun (a : snip * nat) i => let '(s, scan) := a in let x := nd i in
        do s <- tag_gap (n_line x - scan) scan t s; do s <- aset s (n_line x) (Some t); tag_continuations x t s) l2 (s1, hi) = Ok (s', sc) ->
      tops (upto h e ids) sc /\ sets s (S (n_line (nd e))) sc t s') as K.
    { clear H. induction l2 as [|y l2 IH]; intros l1 s1 hi El HT Hhi HS H; cbn [foldM] in H.
      - injection H as <- <-. rewrite app_nil_r in El. subst l1. auto.
      - apply bind_ok in H as ([s4 sc4] & E & H). cbv zeta in E. apply bind_ok in E as (s2 & E2 & E). apply bind_ok in E as (s3 & E3 & E).
        assert (In y ids) as Hy by (rewrite El; apply in_or_app; right; now left). destruct (Hk y Hy) as [Py Ty]. destruct (parent_range _ SI _ _ Py) as (Ry & Ly & _).
        assert (plain_node (nd y)) as (Y1 & Y2 & Y3 & Y4).
        { destruct (ld_shape _ _ L y ltac:(lia)) as (_ & _ & _ & Q). destruct Ty as [Ty|Ty]; rewrite Ty in Q; exact Q. }
        apply tag_conts in E as [HT4 HS4]; auto.
        assert (forall x, In x l1 -> n_parent (nd x) = Some e /\ x < y) as Hl1.
        { intros x Hx. split; [apply Hk; rewrite El; apply in_or_app; now left|]. rewrite El in Hs. exact (sorted_split _ _ _ Hs x Hx). }
        pose proof (upto_next e l1 y hi Hl1 Py ltac:(lia) HT) as Hle.
        assert (forall z, n_parent (nd z) <> Some y) as Hno.
        { intros z Hz. apply child_listed in Hz. rewrite Y1, Y2 in Hz. unfold sec_like, ncls in Hz. destruct Ty as [Ty|Ty]; rewrite Ty in Hz; destruct Hz as [[_ [Q|Q]]|[Q _]]; discriminate. }
        pose proof (tops_iff _ _ _ (lone_lines y Hno) HT4) as HT5. assert (n_line (nd y) < sc4) as Hlt by (apply HT5, line_self).
        apply gap_sets in E2. replace (hi + (n_line (nd y) - hi)) with (n_line (nd y)) in E2 by lia. apply aset_sets in E3.
        apply (IH (l1 ++ [y]) s4 sc4); [rewrite <- app_assoc; exact El|apply (upto_more e l1 y hi); auto|lia| |exact H].
        apply (sets_trans _ _ hi _ _ s1); [assumption| |lia]. apply (sets_trans _ _ (n_line (nd y)) _ _ s2); [assumption| |lia]. apply (sets_trans _ _ (S (n_line (nd y))) _ _ s3); [assumption|assumption|lia]. }
    apply (K ids [] s (n_line (nd e) + 1)); [reflexivity| |lia|rewrite Nat.add_1_r; apply sets_refl|exact H].
    rewrite Nat.add_1_r. split; [exists (n_line (nd e)); split; [left; now left|reflexivity]|]. intros k [[->|(l & Hl & _)]|(y & [] & _)]; [lia|]. rewrite Hr in Hl. destruct Hl.
  Qed.

  Theorem tag_element_lines f e t s s' sc : 0 < e < length h -> (n_type (nd e) = SECTION -> t = INDICATE) -> tag_element f h e t s = Ok (s', sc) ->
    exists hi, tops (line_of h e) hi /\ sets s (S (n_line (nd e))) hi t s' /\ forall n, sc = Some n -> n = hi.
  Proof.
    revert e s s' sc. induction f as [|f IH]; intros e s s' sc He Ht H; [discriminate|]. cbn [tag_element] in H.
    destruct (ld_shape _ _ L e ltac:(lia)) as (_ & Ei & Ee & Hsh). pose proof (own_tops e He) as HO.
    assert (forall a b, n_type (nd e) <> SECTION -> n_items (nd e) = None -> n_entries (nd e) = None -> rest (nd e) = [] -> a = s -> (forall n, b = Some n -> n = S (n_line (nd e))) -> a = s' -> b = sc ->
      exists hi, tops (line_of h e) hi /\ sets s (S (n_line (nd e))) hi t s' /\ forall n, sc = Some n -> n = hi) as Kn.
    { intros a b Hs Hi Hn Hr -> Hb <- <-. assert (forall y, n_parent (nd y) <> Some e) as Hno.
      { intros y Hy. apply child_listed in Hy. rewrite Hi, Hn in Hy. destruct Hy as [[_ [Q|Q]]|[_ [[]|[]]]].
        - pose proof (kind HP e He) as [Kd _]. unfold ncls in Q. destruct (n_type (nd e)); try discriminate. congruence.
        - unfold ncls in Q. destruct (n_type (nd e)); try discriminate. congruence. }
      rewrite Hr in HO. exists (S (n_line (nd e))). split; [exact (tops_iff _ _ _ (lone_lines e Hno) HO)|]. split; [apply sets_refl|assumption]. }
    assert (plain_node (nd e) -> ncls (nd e) <> CDoc -> ncls (nd e) <> CSec -> forall y, n_parent (nd y) <> Some e) as Kp.
    { intros (Y1 & Y2 & Y3 & Y4) C1 C2 z Hz. apply child_listed in Hz. rewrite Y1, Y2 in Hz. destruct Hz as [[_ [Q|Q]]|[_ [[]|[]]]]; congruence. }
    assert ((do (s, sc) <- tag_continuations (nd e) t s; Ok (s, Some sc)) = Ok (s', sc) -> plain_node (nd e) -> ncls (nd e) <> CDoc -> ncls (nd e) <> CSec ->
      exists hi, tops (line_of h e) hi /\ sets s (S (n_line (nd e))) hi t s' /\ forall n, sc = Some n -> n = hi) as Kc.
    { intros E Hpl C1 C2. apply bind_ok in E as ([s1 sc1] & E1 & E). injection E as <- <-. pose proof Hpl as (_ & _ & Y3 & Y4). apply tag_conts in E1 as [HT HS]; auto.
      exists sc1. split; [exact (tops_iff _ _ _ (lone_lines e (Kp Hpl C1 C2)) HT)|]. split; [assumption|]. intros n [= ->]. reflexivity. }
    unfold ncls in Kc, Kp.
    destruct (n_type (nd e)) eqn:Ty; try contradiction.
    all: try (apply Kc; [exact H|exact Hsh|cbn; discriminate|cbn; discriminate]).
    - (* DOCUMENT *) destruct (kind HP e He) as [Kd _]. congruence.
    - (* EMPTY *) destruct Hsh as ((Y1 & Y2 & Y3 & Y4) & Y5). injection H as <- <-. apply (Kn s None); auto; [discriminate| |discriminate]. unfold rest. now rewrite Y3, Y4, Y5.
    - (* FIELDSET *) destruct Hsh as (Y1 & Y3 & Y4 & Y5). assert (rest (nd e) = []) as Hr by (unfold rest; now rewrite Y3, Y4, Y5). destruct (n_entries (nd e)) as [ids|] eqn:En.
      + apply bind_ok in H as ([s1 sc1] & E1 & E). injection E as <- <-. unfold tag_continuables in E1.
        assert (ids = HeapFacts.ids (entry_of e) h) as Eid by (rewrite <- (ld_entries _ _ L e ltac:(lia)), En; reflexivity).
        destruct (tag_kids e ids t s s1 sc1 He) as [HT HS]; auto.
        * rewrite Eid. apply ids_sorted.
        * intros y Hy. destruct (entry_child e y ltac:(lia)) as [Q1 Q2]; [rewrite En; exact Hy|]. auto.
        * exists sc1. split; [|split; [assumption|intros n [= ->]; reflexivity]]. refine (tops_iff _ _ _ (upto_all e ids _) HT).
          intro y. split; [intro Hy; apply (entry_child e y ltac:(lia)); rewrite En; exact Hy|]. intro Hy. apply child_listed in Hy. unfold sec_like, ncls in Hy. rewrite Ty, Y1, En in Hy. destruct Hy as [[_ [Q|Q]]|[_ [[]|Q]]]; try discriminate. exact Q.
      + injection H as <- <-. apply (Kn s None); auto; discriminate.
    - (* LIST *) destruct Hsh as (Y1 & Y3 & Y4 & Y5). assert (rest (nd e) = []) as Hr by (unfold rest; now rewrite Y3, Y4, Y5). apply bind_ok in H as ([s1 sc1] & E1 & E). injection E as <- <-. unfold tag_continuables in E1.
      destruct (n_items (nd e)) as [ids|] eqn:En.
      + assert (ids = HeapFacts.ids (item_of e) h) as Eid by (rewrite <- (ld_items _ _ L e ltac:(lia)), En; reflexivity).
        destruct (tag_kids e ids t s s1 sc1 He) as [HT HS]; auto.
        * rewrite Eid. apply ids_sorted.
        * intros y Hy. destruct (item_child e y ltac:(lia)) as [Q1 Q2]; [rewrite En; exact Hy|]. auto.
        * exists sc1. split; [|split; [assumption|intros n [= ->]; reflexivity]]. refine (tops_iff _ _ _ (upto_all e ids _) HT).
          intro y. split; [intro Hy; apply (item_child e y ltac:(lia)); rewrite En; exact Hy|]. intro Hy. apply child_listed in Hy. unfold sec_like, ncls in Hy. rewrite Ty, Y1, En in Hy. destruct Hy as [[_ [Q|Q]]|[_ [Q|[]]]]; try discriminate. exact Q.
      + injection E1 as <- <-. apply (Kn s (Some (n_line (nd e) + 1))); auto; [discriminate|]. intros n [= <-]. lia.
    - (* MULTILINE *) destruct Hsh as (Y1 & Y2 & Y3 & Y4 & Y5). apply bind_ok in H as (s1 & E1 & H). destruct (n_end (nd e)) as [l|] eqn:En; [|congruence].
      apply bind_ok in H as (s2 & E2 & H). injection H as <- <-. destruct (ld_ml _ _ L e He Ty) as [_ Hml]. unfold ml_rest in Hml. rewrite En in Hml.
      assert (rest (nd e) = olist (n_lines (nd e)) ++ [l]) as Hr by (unfold rest; rewrite Y3, En; reflexivity).
      assert (l_line l = S (n_line (nd e)) + length (olist (n_lines (nd e)))) as El by (apply Hml; rewrite nth_error_app2, Nat.sub_diag by lia; reflexivity).
      assert (sets s (S (n_line (nd e))) (l_line l) t s1) as HS1.
      { rewrite El. destruct (n_lines (nd e)) as [ls|]; cbn [olist] in *.
        - apply run_sets; [|exact E1]. intros j lf Hj. apply Hml. rewrite nth_error_app1 by (apply nth_error_Some; congruence). exact Hj.
        - injection E1 as <-. cbn [length]. rewrite Nat.add_0_r. apply sets_refl. }
      apply aset_sets in E2. exists (S (l_line l)). split; [|split; [apply (sets_trans _ _ (l_line l) _ _ s1); [assumption|assumption|lia]|intros n [= <-]; lia]].
      rewrite Hr, map_app in HO. cbn [map] in HO. rewrite last_last in HO. refine (tops_iff _ _ _ (lone_lines e _) HO). intros y Hy. apply child_listed in Hy. unfold sec_like, ncls in Hy. rewrite Ty, Y1, Y2 in Hy. destruct Hy as [[_ [Q|Q]]|[_ [[]|[]]]]; discriminate.
    - (* SECTION *) destruct Hsh as ((Y1 & Y2 & Y3 & Y4) & Y5). assert (rest (nd e) = []) as Hr by (unfold rest; now rewrite Y3, Y4, Y5). rewrite (Ht eq_refl) in *. clear Ht.
      assert (forall l2 l1 s1 hi sc1, n_elements (nd e) = l1 ++ l2 -> tops (upto h e l1) hi -> S (n_line (nd e)) <= hi -> sets s (S (n_line (nd e))) hi INDICATE s1 -> (forall n, sc1 = Some n -> n = hi) ->
        foldM (fun (a : snip * option nat) e => let '(s, sc) := a in match sc with None => Raise TypeError | Some scan => let x := nd e in
                do s <- tag_gap (n_line x - scan) scan INDICATE s; do s <- aset s (n_line x) (Some INDICATE); tag_element f h e INDICATE s end) l2 (s1, sc1) = Ok (s', sc) ->
        exists hi', tops (upto h e (n_elements (nd e))) hi' /\ sets s (S (n_line (nd e))) hi' INDICATE s' /\ forall n, sc = Some n -> n = hi') as K.
      { clear H. induction l2 as [|y l2 IH2]; intros l1 s1 hi sc1 El HT Hhi HS Hsc H; cbn [foldM] in H.
        - injection H as <- <-. rewrite app_nil_r in El. rewrite El. eauto.
        - apply bind_ok in H as ([s4 sc4] & E & H). destruct sc1 as [scan|]; [|discriminate]. rewrite (Hsc scan eq_refl) in E. cbv zeta in E. apply bind_ok in E as (s2 & E2 & E). apply bind_ok in E as (s3 & E3 & E).
          assert (In y (n_elements (nd e))) as Hy by (rewrite El; apply in_or_app; right; now left). pose proof (elem_child e y ltac:(lia) Hy) as Py. destruct (parent_range _ SI _ _ Py) as (Ry & Ly & _).
          apply IH in E as (hi4 & HT4 & HS4 & Hsc4); [|assumption|reflexivity].
          assert (forall x, In x l1 -> n_parent (nd x) = Some e /\ x < y) as Hl1.
          { intros x Hx. split; [apply elem_child; [lia|]; rewrite El; apply in_or_app; now left|]. apply (sorted_split l1 y l2); [|assumption]. rewrite <- El, (ld_elems _ _ L e ltac:(lia)). apply ids_sorted. }
          pose proof (upto_next e l1 y hi Hl1 Py ltac:(lia) HT) as Hle. assert (n_line (nd y) < hi4) as Hlt by (apply HT4, line_self).
          apply gap_sets in E2. replace (hi + (n_line (nd y) - hi)) with (n_line (nd y)) in E2 by lia. apply aset_sets in E3.
          apply (IH2 (l1 ++ [y]) s4 hi4 sc4); [rewrite <- app_assoc; exact El|apply (upto_more e l1 y hi); auto|lia| |assumption|exact H].
          apply (sets_trans _ _ hi _ _ s1); [assumption| |lia]. apply (sets_trans _ _ (n_line (nd y)) _ _ s2); [assumption| |lia]. apply (sets_trans _ _ (S (n_line (nd y))) _ _ s3); [assumption|assumption|lia]. }
      destruct (K (n_elements (nd e)) [] s (n_line (nd e) + 1) (Some (n_line (nd e) + 1)) eq_refl) as (hi & HT & HS & Hsc); auto.
      + rewrite Nat.add_1_r. split; [exists (n_line (nd e)); split; [left; now left|reflexivity]|]. intros k [[->|(l & Hl & _)]|(y & [] & _)]; [lia|]. rewrite Hr in Hl. destruct Hl.
      + lia.
      + rewrite Nat.add_1_r. apply sets_refl.
      + intros n [= <-]. reflexivity.
      + exists hi. split; [|auto]. refine (tops_iff _ _ _ (upto_all e _ _) HT). intro y. split; [apply elem_child; lia|]. intro Hy. apply child_listed in Hy. rewrite Y1, Y2 in Hy. destruct Hy as [[Q _]|[_ [[]|[]]]]. exact Q.
  Qed.

  (** * Missing elements *)

  (** before the first subsection of [e]: lines of [l] behind their first ones are in question, the others belong to the place *)
  Definition flat_tags (g : heap) (s : snip) (e : nat) (l : list nat) (hi : nat) (s' : snip) : Prop :=
    length s' = length s /\ (forall j, ~ (n_line (hget g e) < j < hi) -> nth_error s' j = nth_error s j) /\
    forall j, n_line (hget g e) < j < hi ->
      (exists x, In x l /\ inside g x j) /\ nth_error s' j = Some (Some QUESTION) \/ (forall x, In x l -> ~ inside g x j) /\ nth_error s' j = Some (Some INDICATE).
  Lemma flat_gap s e l hi s1 hi' s2 : flat_tags h s e l hi s1 -> tops (upto h e l) hi -> sets s1 hi hi' INDICATE s2 -> n_line (nd e) < hi <= hi' -> flat_tags h s e l hi' s2.
  Proof.
    intros (F1 & F2 & F3) [_ HT] (L1 & I1 & O1) Hhi. split; [congruence|]. split; [intros j Hj; rewrite O1 by lia; apply F2; lia|]. intros j Hj. destruct (Nat.lt_ge_cases j hi) as [H|H].
    - rewrite O1 by lia. apply F3. lia.
    - right. split; [|apply I1; lia]. intros x Hx [_ (k & Hk & Hle)]. assert (k < hi) by (apply HT; right; eauto). lia.
  Qed.
  Theorem tag_flat_lines f e s s' : 0 < e < length h -> n_type (nd e) = SECTION -> tag_flat f h (n_elements (nd e)) QUESTION s (Some (n_line (nd e) + 1)) = Ok s' ->
    exists l hi, before_sections h e l /\ flat_tags h s e l hi s' /\ n_line (nd e) < hi /\
      (tops (upto h e l) hi /\ l = n_elements (nd e) \/ exists x l2, n_elements (nd e) = l ++ x :: l2 /\ n_type (nd x) = SECTION /\ hi = n_line (nd x)).
  Proof.
    intros He Ty H. destruct (ld_shape _ _ L e ltac:(lia)) as (_ & _ & _ & Hsh). rewrite Ty in Hsh. destruct Hsh as ((Y1 & Y2 & Y3 & Y4) & Y5). assert (rest (nd e) = []) as Hr by (unfold rest; now rewrite Y3, Y4, Y5).
    assert (forall l2 l1 s1 hi sc1, n_elements (nd e) = l1 ++ l2 -> (forall x, In x l1 -> n_type (nd x) <> SECTION) -> tops (upto h e l1) hi -> n_line (nd e) < hi -> flat_tags h s e l1 hi s1 -> (forall n, sc1 = Some n -> n = hi) ->
      tag_flat f h l2 QUESTION s1 sc1 = Ok s' ->
      exists l hi', before_sections h e l /\ flat_tags h s e l hi' s' /\ n_line (nd e) < hi' /\
        (tops (upto h e l) hi' /\ l = n_elements (nd e) \/ exists x l2, n_elements (nd e) = l ++ x :: l2 /\ n_type (nd x) = SECTION /\ hi' = n_line (nd x))) as K.
    { clear H. induction l2 as [|y l2 IH2]; intros l1 s1 hi sc1 El Hns HT Hhi HF Hsc H; cbn [tag_flat] in H.
      - injection H as <-. rewrite app_nil_r in El. exists l1, hi. split; [exists []; rewrite app_nil_r; auto|]. split; [assumption|]. split; [assumption|]. left. auto.
      - destruct sc1 as [scan|]; [|discriminate]. rewrite (Hsc scan eq_refl) in H. cbv zeta in H. apply bind_ok in H as (s2 & E2 & H).
        assert (In y (n_elements (nd e))) as Hy by (rewrite El; apply in_or_app; right; now left). pose proof (elem_child e y ltac:(lia) Hy) as Py. destruct (parent_range _ SI _ _ Py) as (Ry & Ly & _).
        assert (forall x, In x l1 -> n_parent (nd x) = Some e /\ x < y) as Hl1.
        { intros x Hx. split; [apply elem_child; [lia|]; rewrite El; apply in_or_app; now left|]. apply (sorted_split l1 y l2); [|assumption]. rewrite <- El, (ld_elems _ _ L e ltac:(lia)). apply ids_sorted. }
        pose proof (upto_next e l1 y hi Hl1 Py ltac:(lia) HT) as Hle.
        apply gap_sets in E2. replace (hi + (n_line (nd y) - hi)) with (n_line (nd y)) in E2 by lia.
        pose proof (flat_gap s e l1 hi s1 _ s2 HF HT E2 ltac:(lia)) as HF2. destruct (itype_eqb (n_type (nd y)) SECTION) eqn:Et.
        + injection H as <-. assert (n_type (nd y) = SECTION) as Es by (destruct (n_type (nd y)); (reflexivity || discriminate)).
          exists l1, (n_line (nd y)). split; [exists (y :: l2); auto|]. split; [assumption|]. split; [lia|]. right. eauto.
        + assert (n_type (nd y) <> SECTION) as Es by (intro Q; rewrite Q in Et; discriminate). apply bind_ok in H as (s3 & E3 & H). apply bind_ok in H as ([s4 sc4] & E & H).
          apply (tag_element_lines f y QUESTION) in E as (hi4 & HT4 & HS4 & Hsc4); [|assumption|contradiction]. assert (n_line (nd y) < hi4) as Hlt by (apply HT4, line_self). apply aset_sets in E3.
          assert (forall j, n_line (nd y) < j < hi4 <-> inside h y j) as Hin.
          { intro j. unfold inside. split.
            - intros [J1 J2]. split; [assumption|]. destruct HT4 as [(k & Hk & ->) _]. exists k. split; [assumption|lia].
            - intros [J1 (k & Hk & Hj)]. split; [assumption|]. apply HT4 in Hk. lia. }
          apply (IH2 (l1 ++ [y]) s4 hi4 sc4); [rewrite <- app_assoc; exact El| |apply (upto_more e l1 y hi); auto|lia| |assumption|exact H].
          * intros x Hx. apply in_app_or in Hx as [Hx|[<-|[]]]; auto.
          * pose proof (flat_gap s e l1 hi s1 (S (n_line (nd y))) s3 HF HT (sets_trans _ _ _ _ _ _ _ E2 E3 ltac:(lia)) ltac:(lia)) as (F1 & F2 & F3). destruct HS4 as (L4 & I4 & O4).
            split; [congruence|]. split; [intros j Hj; rewrite O4 by lia; apply F2; lia|]. intros j Hj. destruct (Nat.le_gt_cases (S (n_line (nd y))) j) as [J|J].
            -- left. split; [|apply I4; lia]. exists y. split; [apply in_or_app; right; now left|]. apply Hin. lia.
            -- rewrite O4 by lia. destruct (F3 j ltac:(lia)) as [[(x & Hx & Hi) F]|[Hn F]]; [left|right]; (split; [|assumption]).
               ++ exists x. split; [apply in_or_app; now left|assumption].
               ++ intros x Hx. apply in_app_or in Hx as [Hx|[<-|[]]]; [auto|]. rewrite <- Hin. lia. }
    apply (K (n_elements (nd e)) [] s (n_line (nd e) + 1) (Some (n_line (nd e) + 1))); auto.
    - rewrite Nat.add_1_r. split; [exists (n_line (nd e)); split; [left; now left|reflexivity]|]. intros k [[->|(l & Hl & _)]|(y & [] & _)]; [lia|]. rewrite Hr in Hl. destruct Hl.
    - lia.
    - split; [reflexivity|]. split; [reflexivity|]. intros; lia.
    - intros n [= <-]. reflexivity.
  Qed.
End Tags.
