(** LineOrder: the line numbers of instructions and of what they contain, in document order. *)
From Verif Require Import Base Regex Grammar Types Messages Scan Analyzer TokenStep ScanProofs ScanFacts StepProofs HeapFacts AnalyzerInv AnalyzerLoop StepChange SpecText AnalyzerText AnalyzerTiles AnalyzerBlocks
  AnalyzerLines AnalyzerFinal AnalyzerBounds SpecTree AnalyzerTree Resolver SpecResolve ResolverIndex ResolverFields ResolverSections ResolverFinal ResolverComments NumberOrder
  Reporter Errors Context Faults SpecLookup LookupDoc ReporterFacts ReporterTags ParseErrors ParseContext ParseOutcome SelectProofs PrintDoc PrintProofs PropAnalysisProofs
  SpecSnippet SnippetRows ReporterFree SpecDraw DrawProofs DrawDoc SpecMarks.

(** increasing numbers above [a] *)
Fixpoint up (a : nat) (l : list nat) : Prop := match l with [] => True | x :: l => a < x /\ up x l end.
Lemma up_last a l : up a l -> a <= last l a /\ forall x, In x l -> a < x <= last l a.
Proof.
  revert a. induction l as [|y l IH]; intros a H; cbn [up] in H.
  - split; [reflexivity|intros x []].
  - destruct H as [H1 H2]. destruct (IH _ H2) as [I1 I2]. rewrite last_cons. split; [lia|]. intros x [->|Hx]; [lia|]. apply I2 in Hx. lia.
Qed.
Lemma up_app a l1 l2 : up a (l1 ++ l2) <-> up a l1 /\ up (last l1 a) l2.
Proof.
  revert a. induction l1 as [|x l1 IH]; intro a; [cbn; tauto|]. cbn [app up]. rewrite IH, last_cons. tauto.
Qed.
Lemma last_app' {A} (l1 l2 : list A) a : last (l1 ++ l2) a = last l2 (last l1 a).
Proof.
  revert a. induction l1 as [|x l1 IH]; intro a; [reflexivity|]. cbn [app]. rewrite !last_cons. apply IH.
Qed.

(** own lines of [x] *)
Definition own_line (h : heap) (x k : nat) : Prop := k = n_line (hget h x) \/ exists l, In l (rest (hget h x)) /\ k = l_line l.

(** * Subtrees *)

Lemma encloses_child h e x : encloses h e x <-> exists y, n_parent (hget h y) = Some e /\ (x = y \/ encloses h y x).
Proof.
  split.
  - induction 1 as [i p Hp|i p a Hp He (y & Hy & IH)]; [exists i; auto|]. exists y. split; [assumption|]. right. destruct IH as [->|IH]; [now apply enc_parent|now apply (enc_up _ _ p)].
  - intros (y & Hy & [->|H]); [now apply enc_parent|]. induction H as [i p Hp|i p a Hp He IH]; [apply (enc_up _ _ p); [assumption|now apply enc_parent]|apply (enc_up _ _ p); auto].
Qed.
Lemma line_child h e k : line_of h e k <-> own_line h e k \/ exists y, n_parent (hget h y) = Some e /\ line_of h y k.
Proof.
  unfold line_of. setoid_rewrite encloses_child at 1. split.
  - intros (x & [->|(y & Hy & Hx)] & Hk); [now left|]. right. exists y. split; [assumption|]. exists x. split; [|assumption]. destruct Hx; auto.
  - intros [H|(y & Hy & x & Hx & Hk)]; [exists e; split; [now left|exact H]|]. exists x. split; [|assumption]. right. exists y. split; [assumption|]. destruct Hx; auto.
Qed.

Section Siblings.
  Context (h : heap) (S : SInv h).
  Lemma parent_range i p : n_parent (hget h i) = Some p -> 0 < i < length h /\ p < i /\ placed h p i.
  Proof.
    intro Hp. destruct (Nat.eq_dec i 0) as [->|]; [rewrite (s_docp _ S) in Hp; discriminate|].
    destruct (Nat.lt_ge_cases i (length h)) as [Hi|Hi]; [|unfold hget in Hp; rewrite nth_overflow in Hp by lia; discriminate].
    split; [lia|]. destruct (s_node _ S i ltac:(lia)) as (q & Hq & Hlt & Hpl). assert (q = p) as -> by congruence. auto.
  Qed.
  Lemma before_sibling p x y z : n_parent (hget h x) = Some p -> n_parent (hget h y) = Some p -> x < y -> encloses h x z -> x < z < y.
  Proof.
    intros Hx Hy Hxy He. destruct (parent_range _ _ Hx) as (Rx & Lx & Px). destruct (parent_range _ _ Hy) as (Ry & Ly & Py).
    assert (forall z q, x <= q < y -> n_parent (hget h z) = Some q -> x < z < y) as K.
    { clear z He. intros z q Hq Hz. destruct (parent_range _ _ Hz) as (Rz & Lz & Pz). destruct (Nat.lt_trichotomy z y) as [H|[->|H]]; [lia|assert (q = p) by congruence; lia|exfalso].
      unfold placed in Pz, Py. unfold sec_like in *. destruct (ncls (hget h z)) eqn:Cz; try contradiction.
      - destruct Pz as ([Cq|Cq] & Dz & Pz).
        { destruct (Nat.eq_dec q 0); [lia|]. destruct (s_node _ S q ltac:(lia)) as (w & _ & _ & Pw). unfold placed in Pw. rewrite Cq in Pw. contradiction. }
        destruct (ncls (hget h y)) eqn:Cy; try contradiction.
        + destruct Py as (_ & Dy & Py). pose proof (Py q ltac:(lia) Cq). pose proof (Pz y ltac:(lia) Cy). lia.
        + destruct Py as (_ & Py). exact (Py q ltac:(lia) Cq).
        + destruct Py as (_ & Py). destruct (Py q ltac:(lia)). congruence.
        + destruct Py as (_ & Py). destruct (Py q ltac:(lia)). congruence.
      - destruct Pz as ([Cq|Cq] & Pz).
        { destruct (Nat.eq_dec q 0); [lia|]. destruct (s_node _ S q ltac:(lia)) as (w & _ & _ & Pw). unfold placed in Pw. rewrite Cq in Pw. contradiction. }
        destruct (ncls (hget h y)) eqn:Cy; try contradiction.
        + exact (Pz y ltac:(lia) Cy).
        + destruct Py as (_ & Py). exact (Py q ltac:(lia) Cq).
        + destruct Py as (_ & Py). destruct (Py q ltac:(lia)). congruence.
        + destruct Py as (_ & Py). destruct (Py q ltac:(lia)). congruence.
      - destruct Pz as (_ & Pz). destruct (Pz y ltac:(lia)) as [_ E]. assert (q = p) by congruence. lia.
      - destruct Pz as (_ & Pz). destruct (Pz y ltac:(lia)) as [_ E]. assert (q = p) by congruence. lia. }
    induction He as [i q Hp|i q a Hp He IH].
    - apply (K i q); [lia|assumption].
    - specialize (IH Hx Hxy Rx Lx Px K). apply (K i q); [lia|assumption].
  Qed.
End Siblings.

(** the numbered lines of [x] *)
Definition nums_of (h : heap) (x : nat) : list (nat * (nat * nat)) := (n_line (hget h x), line_range (n_ranges (hget h x))) :: map leaf_num (rest (hget h x)).

Section Numbers.
  Context {inp : text} {loc : locale} {rk : reporter_kind} {src : option text} {c : ctx} (HP : parse_context inp loc rk src = Ok c).
  Local Notation h := (c_heap c).
  Local Notation nd x := (hget h x).

  Lemma parsed_doc : LDoc inp h.
  Proof.
    pose proof HP as H. apply parse_ok in H as (st & lc & r & Ha & Hr & ->). pose proof (resolve_spec _ _ _ (analysed _ _ _ Ha)) as Hsp. rewrite Hr in Hsp.
    exact (parse_LDoc inp st lc Ha r Hsp).
  Qed.
  Local Notation L := parsed_doc.

  Lemma own_in x k : own_line h x k <-> exists s, In (k, s) (nums_of h x).
  Proof.
    unfold own_line, nums_of. split.
    - intros [->|(l & Hl & ->)]; eexists; [now left|right; apply (in_map leaf_num _ l Hl)].
    - intros (s & [[= <- <-]|H]); [now left|]. apply in_map_iff in H as (l & [= <- <-] & Hl). right. eauto.
  Qed.
  Lemma num_order x y : 0 < x < length h -> 0 < y < length h -> forall k s m t, In (k, s) (nums_of h x) -> In (m, t) (nums_of h y) -> (k < m <-> fst s < fst t).
  Proof.
    pose proof HP as H. apply parse_ok in H as (st & lc & r & Ha & Hr & E). subst c. unfold nums_of. cbn [c_heap]. 
    pose proof (resolve_spec _ _ _ (analysed _ _ _ Ha)) as Hsp. rewrite Hr in Hsp. destruct (rs_text _ _ Hsp) as [Hl Htx].
    destruct (numbers_ordered _ _ _ Ha) as [_ Hord].
    assert (forall z, 0 < z < length r -> forall k s, In (k, s) ((n_line (hget r z), line_range (n_ranges (hget r z))) :: map leaf_num (rest (hget r z))) ->
      In (k, s) (heap_nums (a_heap st) ++ map leaf_num (a_meta st))) as K.
    { intros z Hz k s Hk. destruct (text_rest _ _ (Htx z)) as (E1 & E2 & E3 & _). rewrite E1, E2, E3 in Hk. apply in_or_app. left. unfold heap_nums. apply in_flat_map.
      exists (hget (a_heap st) z). rewrite Hl in Hz. split; [now apply hget_in|]. rewrite node_nums_hanging. apply in_or_app. now right. }
    intros Hx Hy k s m t Hk Hm. destruct (Hord k s (K x Hx k s Hk)) as [_ Q]. exact (Q m t (K y Hy m t Hm)).
  Qed.
  Lemma own_up x : 0 < x < length h -> up (n_line (nd x)) (map l_line (rest (nd x))).
  Proof.
    intro Hx. destruct (ld_node _ _ L x Hx) as (a & b & H). pose proof (num_order x x Hx Hx) as HO. unfold nums_of in HO. change (map leaf_line (rest (nd x))) with (map leaf_line (rest (nd x))) in H.
    assert (forall l n s a, ascending a (s :: map leaf_line l) b -> (forall k s0 m t, In (k, s0) ((n, s) :: map leaf_num l) -> In (m, t) ((n, s) :: map leaf_num l) -> (k < m <-> fst s0 < fst t)) -> up n (map l_line l)) as K.
    { clear. induction l as [|y l IH]; intros n s a H HO; cbn [map up]; [exact I|]. cbn [map] in *. destruct s as [s1 s2]. cbn [ascending] in H. destruct H as (H1 & H2 & H3). split.
      - apply (HO n (s1, s2) (l_line y) (leaf_line y)); [now left|right; now left|]. destruct (leaf_line y) as [u v]. cbn [ascending] in H3. cbn. lia.
      - apply (IH _ _ _ H3). intros k s0 m t Hk Hm. apply HO; right; assumption. }
    exact (K _ _ _ _ H HO).
  Qed.
  Lemma own_before x y k : 0 < x -> x < y < length h -> own_line h x k -> k < n_line (nd y).
  Proof.
    intros Hx Hxy Hk. apply own_in in Hk as [s Hs]. apply (num_order x y ltac:(lia) ltac:(lia) k s (n_line (nd y)) (line_range (n_ranges (nd y))) Hs); [now left|].
    pose proof (ld_order _ _ L x y Hx Hxy) as HO. unfold begins in HO. apply (Nat.le_lt_trans _ (finish (nd x))); [|exact HO].
    destruct (ld_node _ _ L x ltac:(lia)) as (a & b & H).
    assert (In s (line_range (n_ranges (nd x)) :: map leaf_line (rest (nd x)))) as Hin.
    { destruct Hs as [[= _ <-]|Hs]; [now left|]. right. apply in_map_iff in Hs as (l & [= _ <-] & Hl). now apply in_map. }
    unfold finish. revert H Hin. generalize (line_range (n_ranges (nd x))) as u. generalize (rest (nd x)) as l. clear. intros l. revert a.
    induction l as [|y l IH]; intros a u H [<-|Hin].
    - apply ascending_last in H. cbn in *. lia.
    - destruct Hin.
    - apply ascending_last in H. cbn [map] in *. rewrite ?last_cons in *. lia.
    - cbn [map] in *. destruct u as [u1 u2]. cbn [ascending] in H. destruct H as (_ & _ & H). rewrite last_cons. apply (IH _ _ H Hin).
  Qed.
  Lemma line_before p x y k : n_parent (nd x) = Some p -> n_parent (nd y) = Some p -> x < y -> line_of h x k -> k < n_line (nd y).
  Proof.
    intros Hx Hy Hxy (z & Hz & Hk). destruct (parent_range _ (ld_s _ _ L) _ _ Hx) as (Rx & _). destruct (parent_range _ (ld_s _ _ L) _ _ Hy) as (Ry & _).
    assert (x <= z < y) as Hzy by (destruct Hz as [->|Hz]; [lia|]; pose proof (before_sibling _ (ld_s _ _ L) p x y z Hx Hy Hxy Hz); lia).
    apply (own_before z y k); [lia|lia|exact Hk].
  Qed.
  Lemma enclosed_range e z : encloses h e z -> e < z < length h.
  Proof.
    induction 1 as [i p Hp|i p a Hp He IH]; destruct (parent_range _ (ld_s _ _ L) _ _ Hp) as (R & Lt & _); lia.
  Qed.
  Lemma line_from e k : 0 < e < length h -> line_of h e k -> n_line (nd e) <= k /\ (k = n_line (nd e) \/ n_line (nd e) < k).
  Proof.
    intros He (z & Hz & Hk). assert (n_line (nd e) <= k); [|lia]. destruct Hz as [->|Hz].
    - destruct Hk as [->|(l & Hl & ->)]; [lia|]. destruct (up_last _ _ (own_up e He)) as [_ K]. specialize (K (l_line l) (in_map l_line _ _ Hl)). lia.
    - pose proof (enclosed_range _ _ Hz) as R. pose proof (own_before e z (n_line (nd e)) ltac:(lia) ltac:(lia) (or_introl eq_refl)).
      destruct Hk as [->|(l & Hl & ->)]; [lia|]. destruct (up_last _ _ (own_up z ltac:(lia))) as [_ K]. specialize (K (l_line l) (in_map l_line _ _ Hl)). lia.
  Qed.
End Numbers.
