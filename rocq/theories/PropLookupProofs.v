(** PropLookupProofs: the statements of PropLookup for parsed documents. *)
From Coq Require Import ZArith.
From Verif Require Import Base Types Messages Scan Analyzer HeapFacts AnalyzerInv SpecText AnalyzerText AnalyzerTiles AnalyzerLines AnalyzerFinal SpecTree AnalyzerTree AnalyzerBlocks
  Resolver SpecResolve ResolverIndex ResolverFields ResolverSections ResolverFinal ReadLinks Reporter Errors Context ParseOutcome Lookup SpecLookup PropAnalysisProofs
  LookupDoc LookupProofs LookupFound LookupLines LookupAgree.

Section Parsed.
  Context {inp : text} {loc : locale} {rk : reporter_kind} {src : option text} {c : ctx} (HP : parse_context inp loc rk src = Ok c).
  Local Notation h := (c_heap c).
  Local Notation nd := (hget (c_heap c)).

  Record parsed_facts : Prop := {
    pf_input : c_input c = inp;
    pf_doc : LDoc inp h;
    pf_meta : Forall (fun k => nested inp (l_ranges k)) (c_meta c);
    pf_lines : (forall x, 0 < x < length h -> single_line inp (line_range (n_ranges (nd x)))) ->
      (forall x, 0 < x < length h -> single_line inp (line_range (n_ranges (nd x))) /\ n_line (nd x) = line_feeds_before inp (begins (nd x)) /\
         forall k, In k (rest (nd x)) -> l_line k = line_feeds_before inp (fst (leaf_line k))) /\
      (forall k, In k (c_meta c) -> l_line k = line_feeds_before inp (fst (leaf_line k))) /\
      c_line_count c = S (line_feeds_before inp (length inp))
  }.
  Lemma facts : parsed_facts.
  Proof.
    pose proof (proj1 (parse_ok inp loc rk src c) HP) as (st & lc & r & Ha & Hr & Ec). pose proof (analysed _ _ _ Ha) as HA.
    pose proof (resolve_spec _ _ _ HA) as Hs. rewrite Hr in Hs. assert (c_heap c = r) as Eh by (subst c; reflexivity).
    assert (c_meta c = a_meta st /\ c_line_count c = lc /\ c_input c = inp) as (Em & El & Ei) by (subst c; auto). rewrite <- Eh in Hs. clear Hr Eh.
    pose proof (parse_LDoc inp st lc Ha h Hs) as L.
    constructor; [assumption|assumption| |].
    - rewrite Em. destruct (final_faithful _ _ _ Ha) as [_ F]. eapply Forall_impl; [|exact F]. intros k [H _]. exact H.
    - intro H1. rewrite Em, El. pose proof (proj2 (rs_text _ _ Hs)) as HT. pose proof (res_len _ _ Hs) as HL.
      destruct (line_numbers_right inp st lc Ha) as (N1 & N2 & N3).
      { intros n Hn. apply In_nth with (d := document_node) in Hn as (k & Hk & <-).
        assert (0 < S k < length (a_heap st)) as Hk' by (destruct (a_heap st); cbn in *; lia).
        destruct (text_rest _ _ (HT (S k))) as (_ & E2 & _). pose proof (proj2 (hget_in _ _ Hk')) as E. cbn in E. rewrite Nat.sub_0_r in E. rewrite <- E, <- E2.
        apply H1. rewrite HL. exact Hk'. }
      split; [|split; assumption]. intros x Hx. split; [now apply H1|]. destruct (text_rest _ _ (HT x)) as (E1 & E2 & E3 & _). rewrite HL in Hx.
      assert (forall p, In p (node_nums (hget (a_heap st) x)) -> In p (heap_nums (a_heap st))) as Hin.
      { intros p Hp. unfold heap_nums. apply in_flat_map. exists (hget (a_heap st) x). split; [now apply hget_in|assumption]. }
      unfold begins. rewrite E1, E2, E3. split.
      + apply (N1 _ (line_range (n_ranges (hget (a_heap st) x)))). apply Hin. unfold node_nums. apply in_or_app. right. now left.
      + intros k Hk. apply (N1 _ (leaf_line k)). apply Hin. unfold node_nums. apply in_or_app. right. right. apply (in_map leaf_num _ k). exact Hk.
  Qed.
  Let L := pf_doc facts.

  Lemma line_ranges x i rs : x < length h -> line_at (nd x) i rs -> 0 < x /\ nested inp rs.
  Proof.
    intros Hx Hl. destruct x as [|x].
    - exfalso. destruct Hl as ([->|(k & Hk & ->)] & s & Es & _).
      + rewrite (ld_doc _ _ L) in Es. discriminate.
      + destruct (ld_shape _ _ L 0 Hx) as (_ & _ & _ & D). pose proof (s_doc _ (ld_s _ _ L)) as Hd. unfold ncls in Hd.
        destruct (n_type (nd 0)); try discriminate. destruct D as ((D1 & D2 & D3 & D4) & D5). unfold rest in Hk. rewrite D3, D4, D5 in Hk. destruct Hk.
    - split; [lia|]. destruct (ld_nested _ _ L (S x) ltac:(lia)) as [N1 N2]. destruct Hl as ([->|(k & Hk & ->)] & _); [assumption|].
      rewrite Forall_forall in N2. now apply N2.
  Qed.
  Lemma numbered_ranges x l rs : 0 < x < length h -> line_numbered (nd x) l rs -> nested inp rs.
  Proof.
    intros Hx Hn. destruct (ld_nested _ _ L x Hx) as [N1 N2]. destruct Hn as [[-> _]|(k & Hk & _ & ->)]; [assumption|].
    rewrite Forall_forall in N2. now apply N2.
  Qed.

  Lemma find_meta l : match find (fun x => (Z.of_nat (l_line x) =? l)%Z) (c_meta c) with
    | Some k => In k (c_meta c) /\ Z.of_nat (l_line k) = l /\ nested inp (l_ranges k)
    | None => forall k, In k (c_meta c) -> Z.of_nat (l_line k) <> l end.
  Proof.
    destruct (find _ (c_meta c)) as [k|] eqn:E.
    - apply find_some in E as [E1 E2]. apply Z.eqb_eq in E2. split; [assumption|]. split; [assumption|].
      pose proof (pf_meta facts) as F. rewrite Forall_forall in F. now apply F.
    - intros k Hk E'. pose proof (find_none _ _ E k Hk) as F. cbn in F. apply Z.eqb_neq in F. contradiction.
  Qed.

  (** * By index *)

  Lemma index_ok i col : i <= length inp -> exists x o, lookup_in c col (Some (Z.of_nat i)) None = Ok (x, o) /\ innermost h i x /\ range_at h i x o.
  Proof.
    intro Hi. destruct (by_index inp h L i) as (m & M1 & M2 & M3). unfold lookup_in. cbn zeta. rewrite (pf_input facts).
    replace ((Z.of_nat i <? 0)%Z || (Z.of_nat (length inp) <? Z.of_nat i)%Z) with false by (symmetry; apply orb_false_iff; split; apply Z.ltb_ge; lia).
    rewrite Nat2Z.id, M1. cbn [bind]. destruct (lm_instr m) as [ins|]; cbn [instr_at] in M3.
    - cbn [bind]. eexists _, _. split; [reflexivity|]. split; [exact M2|]. left. eexists. split; [exact M3|].
      apply (pick_range_ok inp). apply (line_ranges (lm_element m) i); [apply M2|exact M3].
    - eexists _, _. split; [reflexivity|]. split; [exact M2|]. right. auto.
  Qed.

  (** with a line number next to the index *)
  Lemma index_line_ok i l col : i <= length inp -> exists x o, lookup_in c col (Some (Z.of_nat i)) (Some l) = Ok (x, o) /\ innermost h i x /\
    (range_at h i x o \/ (forall rs, ~ line_at (nd x) i rs) /\ exists rs k, l = Z.of_nat k /\ comment_numbered (c_meta c) k rs /\ picked rs (Z.of_nat i) o).
  Proof.
    intro Hi. destruct (by_index inp h L i) as (m & M1 & M2 & M3). unfold lookup_in. cbn zeta. rewrite (pf_input facts).
    replace ((Z.of_nat i <? 0)%Z || (Z.of_nat (length inp) <? Z.of_nat i)%Z) with false by (symmetry; apply orb_false_iff; split; apply Z.ltb_ge; lia).
    rewrite Nat2Z.id, M1. cbn [bind]. destruct (lm_instr m) as [ins|]; cbn [instr_at] in M3.
    - cbn [bind]. eexists _, _. split; [reflexivity|]. split; [exact M2|]. left. left. eexists. split; [exact M3|].
      apply (pick_range_ok inp). apply (line_ranges (lm_element m) i); [apply M2|exact M3].
    - pose proof (find_meta l) as F. destruct (find _ (c_meta c)) as [k|]; cbn [opt_leaf bind].
      + destruct F as (F1 & F2 & F3). eexists _, _. split; [reflexivity|]. split; [exact M2|]. right. split; [exact M3|]. exists (l_ranges k), (l_line k).
        split; [now symmetry|]. split; [exists k; auto|]. now apply (pick_range_ok inp).
      + eexists _, _. split; [reflexivity|]. split; [exact M2|]. left. right. auto.
  Qed.

  Lemma index_range i col l : lookup_in c col (Some i) l = Raise LookupIndexError <-> (i < 0 \/ Z.of_nat (length inp) < i)%Z.
  Proof.
    destruct (Z_lt_dec i 0) as [H|H]; [|destruct (Z_lt_dec (Z.of_nat (length inp)) i) as [H'|H']].
    - split; [auto|intros _]. unfold lookup_in. cbn zeta. replace (i <? 0)%Z with true by (symmetry; apply Z.ltb_lt; lia). reflexivity.
    - split; [auto|intros _]. unfold lookup_in. cbn zeta. rewrite (pf_input facts). replace (Z.of_nat (length inp) <? i)%Z with true by (symmetry; apply Z.ltb_lt; lia).
      rewrite orb_true_r. reflexivity.
    - split; [|lia]. intro E. exfalso. assert (i = Z.of_nat (Z.to_nat i)) as Ei by lia. rewrite Ei in E. destruct l as [l|].
      + destruct (index_line_ok (Z.to_nat i) l col ltac:(lia)) as (x & o & E' & _). congruence.
      + destruct (index_ok (Z.to_nat i) col ltac:(lia)) as (x & o & E' & _). congruence.
  Qed.
  Lemma index_total i col l : (0 <= i <= Z.of_nat (length inp))%Z -> exists x o, lookup_in c col (Some i) l = Ok (x, o).
  Proof.
    intro H. assert (i = Z.of_nat (Z.to_nat i)) as Ei by lia. rewrite Ei. destruct l as [l|].
    - destruct (index_line_ok (Z.to_nat i) l col ltac:(lia)) as (x & o & E' & _). eauto.
    - destruct (index_ok (Z.to_nat i) col ltac:(lia)) as (x & o & E' & _). eauto.
  Qed.

  (** * By line *)

  Definition found_line (l : nat) (x : nat) (ro : option ranges) : Prop :=
    x < length h /\ match ro with Some rs => line_found h (c_meta c) l x rs /\ nested inp rs | None => True end.

  Lemma line_lookup l : l < c_line_count c -> exists x ro, found_line l x ro /\ forall col,
    lookup_in c col None (Some (Z.of_nat l)) =
      match ro with
      | None => Ok (x, None)
      | Some rs => match col with Some col => Ok (x, pick_range rs (Z.of_nat (fst (line_range rs)) + col)%Z) | None => Raise TypeError end
      end.
  Proof.
    intro Hl. destruct (by_line inp h L l) as (m & M1 & M2 & M3).
    pose proof (find_meta (Z.of_nat l)) as F.
    assert (forall col, lookup_in c col None (Some (Z.of_nat l)) =
      match (match lm_instr m with Some i => Some (i_ranges i) | None => option_map l_ranges (find (fun x => (Z.of_nat (l_line x) =? Z.of_nat l)%Z) (c_meta c)) end) with
      | None => Ok (lm_element m, None)
      | Some rs => match col with Some col => Ok (lm_element m, pick_range rs (Z.of_nat (fst (line_range rs)) + col)%Z) | None => Raise TypeError end
      end) as E.
    { intro col. unfold lookup_in. cbn zeta.
      replace ((Z.of_nat l <? 0)%Z || (Z.of_nat (c_line_count c) <=? Z.of_nat l)%Z) with false by (symmetry; apply orb_false_iff; split; [apply Z.ltb_ge|apply Z.leb_gt]; lia).
      rewrite Nat2Z.id, M1. cbn [bind]. destruct (lm_instr m) as [ins|]; [destruct col; reflexivity|].
      destruct (find _ (c_meta c)); cbn [opt_leaf option_map]; [destruct col; reflexivity|reflexivity]. }
    exists (lm_element m). destruct (lm_instr m) as [ins|].
    - exists (Some (i_ranges ins)). split; [|exact E]. split; [assumption|]. destruct M3 as [M3 M4]. split; [now left|]. now apply (numbered_ranges (lm_element m) l).
    - eexists. split; [|exact E]. split; [assumption|]. clear E. destruct (find _ (c_meta c)) as [k|]; cbn [option_map]; [|exact I].
      destruct F as (F1 & F2 & F3). split; [|assumption]. right. exists k. split; [assumption|]. split; [lia|reflexivity].
  Qed.

  Lemma line_range_error l col : lookup_in c col None (Some l) = Raise LookupIndexError <-> (l < 0 \/ Z.of_nat (c_line_count c) <= l)%Z.
  Proof.
    destruct (Z_lt_dec l 0) as [H|H]; [|destruct (Z_le_dec (Z.of_nat (c_line_count c)) l) as [H'|H']].
    - split; [auto|intros _]. unfold lookup_in. cbn zeta. replace (l <? 0)%Z with true by (symmetry; apply Z.ltb_lt; lia). reflexivity.
    - split; [auto|intros _]. unfold lookup_in. cbn zeta. replace (Z.of_nat (c_line_count c) <=? l)%Z with true by (symmetry; apply Z.leb_le; lia).
      rewrite orb_true_r. reflexivity.
    - split; [|lia]. intro E. exfalso. assert (l = Z.of_nat (Z.to_nat l)) as El by lia. rewrite El in E.
      destruct (line_lookup (Z.to_nat l) ltac:(lia)) as (x & ro & _ & Eq). rewrite Eq in E. destruct ro; [destruct col|]; discriminate.
  Qed.
  Lemma line_total l col : (0 <= l < Z.of_nat (c_line_count c))%Z -> exists x o, lookup_in c (Some col) None (Some l) = Ok (x, o).
  Proof.
    intro H. assert (l = Z.of_nat (Z.to_nat l)) as El by lia. rewrite El.
    destruct (line_lookup (Z.to_nat l) ltac:(lia)) as (x & ro & _ & Eq). rewrite Eq. destruct ro; eauto.
  Qed.
  (** without a column: a TypeError if there is anything on the line *)
  Lemma line_no_column l : (0 <= l < Z.of_nat (c_line_count c))%Z ->
    lookup_in c None None (Some l) = Raise TypeError \/
    exists x, lookup_in c None None (Some l) = Ok (x, None) /\ forall col, lookup_in c (Some col) None (Some l) = Ok (x, None).
  Proof.
    intro H. assert (l = Z.of_nat (Z.to_nat l)) as El by lia. rewrite El.
    destruct (line_lookup (Z.to_nat l) ltac:(lia)) as (x & ro & _ & Eq). destruct ro as [rs|].
    - left. now rewrite Eq.
    - right. exists x. split; [now rewrite Eq|intro; now rewrite Eq].
  Qed.

  (** * C37 *)

  Lemma stretch_le e : e < length h -> ncls (nd e) = CElem -> stretch h e <= text_stretch h e.
  Proof.
    intros He Hc. unfold stretch, text_stretch. destruct (parts (nd e)) as [|x l] eqn:Ep; [lia|].
    assert (In (last l x) (parts (nd e))) as Hin by (rewrite Ep; apply last_in_cons).
    assert (0 < e) as He0 by (destruct e; [rewrite (s_doc _ (ld_s _ _ L)) in Hc; discriminate|lia]).
    destruct (parts_in inp h L e _ ltac:(lia) Hin) as (Q1 & Q2 & _). destruct (own_bounds _ _ L (last l x) ltac:(lia)) as [_ B]. exact B.
  Qed.
  Lemma covers_same i : (forall e, e < length h -> ~ (stretch h e < i <= text_stretch h e)) -> forall x, x < length h -> covers h i x <-> covers_with text_stretch h i x.
  Proof.
    intros Hno x Hx. assert (forall e, e < length h -> ncls (nd e) = CElem -> i <= stretch h e <-> i <= text_stretch h e) as HE.
    { intros e He Hc. pose proof (stretch_le e He Hc). pose proof (Hno e He). lia. }
    unfold covers, covers_with. destruct (n_type (nd x)) eqn:Ety; try tauto;
      try (assert (ncls (nd x) = CElem) as Hc by (unfold ncls; now rewrite Ety); pose proof (HE x Hx Hc); tauto).
    all: try (destruct (ld_shape _ _ L x Hx) as (_ & _ & _ & D); rewrite Ety in D; now destruct D).
    all: assert (0 < x) as Hx0 by (destruct x; [pose proof (s_doc _ (ld_s _ _ L)) as Hd; unfold ncls in Hd; rewrite Ety in Hd; discriminate|lia]);
      assert (ncls (nd x) = CItem \/ ncls (nd x) = CEntry) as Hc by (unfold ncls; rewrite Ety; auto);
      destruct (parent_part inp h L x ltac:(lia) Hc) as (p & P1 & P2 & P3 & _); pose proof (HE p ltac:(lia) P3);
      split; intros (H1 & H2 & q & H3 & H4); (split; [assumption|]; split; [assumption|]; exists p; split; [assumption|]; assert (q = p) as -> by congruence; tauto).
  Qed.
  Lemma index_true i col : i <= length inp -> (forall e, e < length h -> ~ (stretch h e < i <= text_stretch h e)) ->
    exists x o, lookup_in c col (Some (Z.of_nat i)) None = Ok (x, o) /\ true_innermost h i x /\ range_at h i x o.
  Proof.
    intros Hi Hno. destruct (index_ok i col Hi) as (x & o & E & (I1 & I2 & I3) & A). exists x, o. split; [assumption|]. split; [|assumption].
    split; [assumption|]. split; [now apply covers_same|]. intros y Hy Hc. apply (I3 y Hy). apply covers_same; [assumption|lia|assumption].
  Qed.

  (** a position on a line of an instruction: that instruction is found *)
  Lemma line_between x i rs : x < length h -> line_at (nd x) i rs -> 0 < x /\ begins (nd x) <= i <= finish (nd x).
  Proof.
    intros Hx Hl. destruct (line_ranges x i rs Hx Hl) as [H0 _]. split; [assumption|]. destruct (ld_node _ _ L x ltac:(lia)) as (a & b & A).
    destruct (own_bounds _ _ L x ltac:(lia)) as [B1 B2]. destruct Hl as ([->|(k & Hk & ->)] & s & Es & Ho); unfold on in Ho.
    - assert (line_range (n_ranges (nd x)) = s) as E by (unfold line_range; now rewrite Es). unfold begins, le_ in *. rewrite E in *. lia.
    - assert (leaf_line k = s) as E by (unfold leaf_line, line_range; now rewrite Es).
      assert (In s (map leaf_line (rest (nd x)))) as Hin by (rewrite <- E; now apply in_map).
      assert (forall l lo hi s0, ascending lo (s0 :: l) hi -> forall s, In s l -> fst s0 <= fst s /\ snd s <= snd (last l s0)) as G.
      { clear. induction l as [|t l IH]; intros lo hi s0 Ha s []; destruct s0 as [u v]; change (ascending lo ((u, v) :: t :: l) hi) with (lo <= u /\ u <= v /\ ascending (S v) (t :: l) hi) in Ha; destruct Ha as (A1 & A2 & A3).
        - subst s. pose proof (ascending_last _ _ _ _ A3) as (C1 & C2 & C3 & _). rewrite last_cons. cbn [fst snd] in *. lia.
        - specialize (IH _ _ _ A3 s H). rewrite last_cons. pose proof (ascending_last _ _ _ _ A3) as (C1 & C2 & _). destruct IH. cbn [fst snd] in *. lia. }
      specialize (G _ _ _ _ A s Hin). unfold begins, finish. lia.
  Qed.
  Lemma index_on_line x i rs col : x < length h -> line_at (nd x) i rs -> i <= length inp ->
    (forall p, n_parent (nd x) = Some p -> n_type (nd x) = LIST_ITEM \/ n_type (nd x) = FIELDSET_ENTRY -> i <= stretch h p) ->
    exists o, lookup_in c col (Some (Z.of_nat i)) None = Ok (x, o) /\ exists rs, line_at (nd x) i rs /\ picked rs (Z.of_nat i) o.
  Proof.
    intros Hx Hl Hi Hpar. destruct (line_between x i rs Hx Hl) as (H0 & B1 & B2). destruct (index_ok i col Hi) as (y & o & E & I & A).
    assert (covers h i x) as Hc.
    { apply (covers_cls h); [assumption|]. split; [now right|]. destruct (classes inp h L x ltac:(lia)) as [C|[C|[C|C]]]; rewrite C; auto.
      - (* an element is not longer than its parts *)
        unfold stretch. destruct (parts (nd x)) as [|z l] eqn:Ep; [assumption|]. assert (In (last l z) (parts (nd x))) as Hin by (rewrite Ep; apply last_in_cons).
        destruct (parts_in inp h L x _ ltac:(lia) Hin) as (Q1 & Q2 & _). pose proof (ld_order _ _ L x (last l z) ltac:(lia) ltac:(lia)).
        pose proof (own_bounds _ _ L (last l z) ltac:(lia)) as [B3 _]. unfold le_, begins in *. lia.
      - destruct (parent_part inp h L x ltac:(lia) (or_introl C)) as (p & P1 & _). split; [assumption|]. exists p. split; [assumption|]. apply (Hpar p P1). left. unfold ncls in C. destruct (n_type (nd x)); try discriminate; reflexivity.
      - destruct (parent_part inp h L x ltac:(lia) (or_intror C)) as (p & P1 & _). split; [assumption|]. exists p. split; [assumption|]. apply (Hpar p P1). right. unfold ncls in C. destruct (n_type (nd x)); try discriminate; reflexivity. }
    pose proof I as (I1 & I2 & I3). assert (y = x) as ->.
    { destruct (Nat.lt_trichotomy y x) as [G|[G|G]]; [|assumption|].
      - exfalso. apply (I3 x ltac:(lia) Hc).
      - exfalso. destruct I2 as [[->|I2] _]; [lia|]. pose proof (ld_order _ _ L x y ltac:(lia) ltac:(lia)). lia. }
    exists o. split; [assumption|]. destruct A as [A|[A _]]; [assumption|]. exfalso. exact (A rs Hl).
  Qed.

  (** * C38 *)

  Lemma lines_agree l col i : (forall x, 0 < x < length h -> single_line inp (line_range (n_ranges (nd x)))) -> position inp l col i ->
    exists x o o', lookup_in c (Some (Z.of_nat col)) None (Some (Z.of_nat l)) = Ok (x, o) /\
      (forall k, lookup_in c k (Some (Z.of_nat i)) None = Ok (x, o')) /\
      (o = o' \/ o' = None /\ (forall rs, ~ line_at (nd x) i rs) /\ exists rs, comment_numbered (c_meta c) l rs /\ picked rs (Z.of_nat i) o).
  Proof.
    intros H1 HPos. destruct (pf_lines facts H1) as (LN & LM & LC). pose proof (agree inp l col i HPos h L LN (S (length h)) 0 (s_len _ (ld_s _ _ L))) as EA.
    destruct (by_index inp h L i) as (m & M1 & M2 & M3). rewrite M1 in EA. pose proof HPos as (b & B1 & B2 & B3 & B4 & B5).
    assert (l < c_line_count c) as Hl by (rewrite LC, B4; pose proof (feeds_mono inp b (length inp) ltac:(lia)); lia).
    unfold lookup_in. cbn zeta. rewrite (pf_input facts), !Nat2Z.id, M1, EA.
    replace ((Z.of_nat i <? 0)%Z || (Z.of_nat (length inp) <? Z.of_nat i)%Z) with false by (symmetry; apply orb_false_iff; split; apply Z.ltb_ge; lia).
    replace ((Z.of_nat l <? 0)%Z || (Z.of_nat (c_line_count c) <=? Z.of_nat l)%Z) with false by (symmetry; apply orb_false_iff; split; [apply Z.ltb_ge|apply Z.leb_gt]; lia).
    cbn [bind]. destruct (lm_instr m) as [ins|]; cbn [instr_at] in M3.
    - cbn [bind]. eexists _, _, _. split; [reflexivity|]. split; [reflexivity|]. left.
      destruct (line_ranges (lm_element m) i _ ltac:(apply M2) M3) as [H0 _]. destruct M2 as [M2 _].
      pose proof (on_col inp l col i HPos h L LN (lm_element m) _ ltac:(lia) M3) as E. f_equal. lia.
    - pose proof (find_meta (Z.of_nat l)) as F. destruct (find _ (c_meta c)) as [k|]; cbn [opt_leaf bind].
      + destruct F as (F1 & F2 & F3). eexists _, _, _. split; [reflexivity|]. split; [reflexivity|]. right. split; [reflexivity|]. split; [exact M3|].
        exists (l_ranges k). split; [exists k; split; [assumption|]; split; [lia|reflexivity]|].
        assert (fst (line_range (l_ranges k)) + col = i) as E.
        { apply (begin_unique inp l col i HPos).
          - destruct F3 as (b0 & e0 & E0 & _ & _ & Hb & _). unfold line_range. now rewrite E0.
          - specialize (LM k F1). unfold leaf_line in LM. lia. }
        change (i_ranges (leaf_ins k)) with (l_ranges k). replace (Z.of_nat (fst (line_range (l_ranges k))) + Z.of_nat col)%Z with (Z.of_nat i) by lia. now apply (pick_range_ok inp).
      + eexists _, _, _. split; [reflexivity|]. split; [reflexivity|]. now left.
  Qed.

  (** * C39 *)

  Lemma index_within i col x nm : lookup_in c col (Some i) None = Ok (x, Some nm) ->
    exists rs s, line_at (nd x) (Z.to_nat i) rs /\ In (nm, s) rs /\ within s i.
  Proof.
    intro E. assert (0 <= i <= Z.of_nat (length inp))%Z as Hi.
    { pose proof (proj2 (index_range i col None)) as G. destruct (Z_lt_dec i 0); [rewrite G in E by lia; discriminate|].
      destruct (Z_lt_dec (Z.of_nat (length inp)) i); [rewrite G in E by lia; discriminate|lia]. }
    assert (i = Z.of_nat (Z.to_nat i)) as Ei by lia. rewrite Ei in E. destruct (index_ok (Z.to_nat i) col ltac:(lia)) as (y & o & E' & _ & A).
    rewrite E in E'. injection E' as <- <-. destruct A as [(rs & A1 & A2)|[_ A]]; [|discriminate]. destruct (picked_within _ _ _ A2) as (_ & s & P1 & P2).
    exists rs, s. split; [assumption|]. split; [assumption|]. now rewrite Ei.
  Qed.
  Lemma index_line_within i l col x nm : lookup_in c col (Some i) (Some l) = Ok (x, Some nm) ->
    exists rs s, (line_at (nd x) (Z.to_nat i) rs \/ exists k, l = Z.of_nat k /\ comment_numbered (c_meta c) k rs) /\ In (nm, s) rs /\ within s i.
  Proof.
    intro E. assert (0 <= i <= Z.of_nat (length inp))%Z as Hi.
    { pose proof (proj2 (index_range i col (Some l))) as G. destruct (Z_lt_dec i 0); [rewrite G in E by lia; discriminate|].
      destruct (Z_lt_dec (Z.of_nat (length inp)) i); [rewrite G in E by lia; discriminate|lia]. }
    assert (i = Z.of_nat (Z.to_nat i)) as Ei by lia. rewrite Ei in E. destruct (index_line_ok (Z.to_nat i) l col ltac:(lia)) as (y & o & E' & _ & A).
    rewrite E in E'. injection E' as <- <-. destruct A as [[(rs & A1 & A2)|[_ A]]|(_ & rs & k & A1 & A2 & A3)]; [|discriminate|].
    - destruct (picked_within _ _ _ A2) as (_ & s & P1 & P2). exists rs, s. split; [now left|]. split; [assumption|]. now rewrite Ei.
    - destruct (picked_within _ _ _ A3) as (_ & s & P1 & P2). exists rs, s. split; [right; now exists k|]. split; [assumption|]. now rewrite Ei.
  Qed.
  Lemma line_within l col x nm : lookup_in c (Some col) None (Some l) = Ok (x, Some nm) ->
    exists k rs s, l = Z.of_nat k /\ line_found h (c_meta c) k x rs /\ In (nm, s) rs /\ within s (Z.of_nat (fst (line_range rs)) + col)%Z.
  Proof.
    intro E. assert (0 <= l < Z.of_nat (c_line_count c))%Z as Hl.
    { pose proof (proj2 (line_range_error l (Some col))) as G. destruct (Z_lt_dec l 0); [rewrite G in E by lia; discriminate|].
      destruct (Z_le_dec (Z.of_nat (c_line_count c)) l); [rewrite G in E by lia; discriminate|lia]. }
    assert (l = Z.of_nat (Z.to_nat l)) as El by lia. rewrite El in E. destruct (line_lookup (Z.to_nat l) ltac:(lia)) as (y & ro & (Y1 & Y2) & Eq).
    rewrite Eq in E. destruct ro as [rs|]; [|discriminate]. injection E as <- E. destruct Y2 as [Y2 Y3].
    pose proof (pick_range_ok inp rs (Z.of_nat (fst (line_range rs)) + col)%Z Y3) as P. rewrite E in P. destruct (picked_within _ _ _ P) as (_ & s & P1 & P2).
    exists (Z.to_nat l), rs, s. auto.
  Qed.
End Parsed.
