(** LookupFound: lookup by index finds the innermost instruction. *)
From Verif Require Import Base Types Scan Analyzer HeapFacts AnalyzerInv SpecText AnalyzerText AnalyzerTiles SpecTree AnalyzerTree AnalyzerBlocks
  Resolver Reporter Errors Context Lookup SpecLookup LookupDoc LookupProofs.

Section Doc.
  Context (inp : text) (r : heap) (L : LDoc inp r).
  Local Notation nd := (hget r).
  Let S := ld_s _ _ L.

  (** * Sections and elements up to an instruction [k] *)

  Lemma doc_zero x : x < length r -> ncls (nd x) = CDoc -> x = 0.
  Proof.
    intros Hx Hd. destruct (Nat.eq_dec x 0) as [|Hne]; [assumption|]. destruct (s_node _ S x ltac:(lia)) as (p & _ & _ & P).
    unfold placed in P. rewrite Hd in P. destruct P.
  Qed.
  Lemma sec_pos x : 0 < x < length r -> sec_like (nd x) -> ncls (nd x) = CSec.
  Proof. intros Hx [H|H]; [|assumption]. apply doc_zero in H; lia. Qed.
  Lemma in_elems s e : In e (ids (elem_of s) r) <-> e < length r /\ n_parent (nd e) = Some s /\ (ncls (nd e) = CElem \/ ncls (nd e) = CSec).
  Proof.
    rewrite in_ids. unfold elem_of, has_parent, is_cls. rewrite andb_true_iff, orb_true_iff, !nclass_eqb_eq.
    destruct (n_parent (nd e)) as [q|]; [rewrite Nat.eqb_eq|]; intuition congruence.
  Qed.
  Lemma in_items s e : In e (ids (item_of s) r) <-> e < length r /\ n_parent (nd e) = Some s /\ ncls (nd e) = CItem.
  Proof.
    rewrite in_ids. unfold item_of, has_parent, is_cls. rewrite andb_true_iff, !nclass_eqb_eq.
    destruct (n_parent (nd e)) as [q|]; [rewrite Nat.eqb_eq|]; intuition congruence.
  Qed.
  Lemma in_entries s e : In e (ids (entry_of s) r) <-> e < length r /\ n_parent (nd e) = Some s /\ ncls (nd e) = CEntry.
  Proof.
    rewrite in_ids. unfold entry_of, has_parent, is_cls. rewrite andb_true_iff, !nclass_eqb_eq.
    destruct (n_parent (nd e)) as [q|]; [rewrite Nat.eqb_eq|]; intuition congruence.
  Qed.
  Lemma child_pos s e : e < length r -> n_parent (nd e) = Some s -> s < e.
  Proof.
    intros He Hp. destruct (Nat.eq_dec e 0) as [->|Hne]; [rewrite (s_docp _ S) in Hp; discriminate|].
    destruct (s_node _ S e ltac:(lia)) as (p & P1 & P2 & _). congruence.
  Qed.

  (** section [s] is the innermost open one or an outer one, at instruction [k] *)
  Definition inside (s k : nat) : Prop :=
    s <= k /\ k < length r /\ sec_like (nd s) /\ forall j, s < j <= k -> ncls (nd j) = CSec -> odepth (nd s) < odepth (nd j).

  (** a container before [s] is not the parent of anything inside [s] *)
  Lemma parent_elem s k j : inside s k -> s < j <= k -> ncls (nd j) = CElem -> (forall i, s < i < j -> ncls (nd i) <> CSec) -> n_parent (nd j) = Some s.
  Proof.
    intros (I1 & I2 & I3 & I4) Hj Hc Hno. destruct (s_node _ S j ltac:(lia)) as (p & P1 & P2 & P). unfold placed in P. rewrite Hc in P.
    destruct P as [Q1 Q2]. destruct (Nat.lt_trichotomy p s) as [H|[H|H]]; [| congruence |].
    - exfalso. apply (Q2 s ltac:(lia)). apply sec_pos; [lia|assumption].
    - exfalso. apply (Hno p ltac:(lia)). apply sec_pos; [lia|assumption].
  Qed.
  Lemma parent_sec s k j : inside s k -> s < j <= k -> ncls (nd j) = CSec -> (forall i, s < i < j -> ncls (nd i) = CSec -> Datatypes.S (odepth (nd i)) <> odepth (nd j)) -> n_parent (nd j) = Some s.
  Proof.
    intros (I1 & I2 & I3 & I4) Hj Hc Hno. destruct (s_node _ S j ltac:(lia)) as (p & P1 & P2 & P). unfold placed in P. rewrite Hc in P.
    destruct P as (Q1 & Q2 & Q3). specialize (I4 j Hj Hc). destruct (Nat.lt_trichotomy p s) as [H|[H|H]]; [| congruence |].
    - exfalso. assert (ncls (nd s) = CSec) as Hs by (apply sec_pos; [lia|assumption]). specialize (Q3 s ltac:(lia) Hs). lia.
    - exfalso. apply (Hno p ltac:(lia)); [apply sec_pos; [lia|assumption]|congruence].
  Qed.
  Lemma parent_part j : 0 < j < length r -> ncls (nd j) = CItem \/ ncls (nd j) = CEntry ->
    exists p, n_parent (nd j) = Some p /\ p < j /\ ncls (nd p) = CElem /\ forall i, p < i < j -> ncls (nd i) = ncls (nd j) /\ n_parent (nd i) = Some p.
  Proof.
    intros Hj Hc. destruct (s_node _ S j Hj) as (p & P1 & P2 & P). exists p. unfold placed in P. destruct Hc as [Hc|Hc]; rewrite Hc in *; destruct P; auto.
  Qed.
  Lemma classes j : 0 < j < length r -> ncls (nd j) = CElem \/ ncls (nd j) = CSec \/ ncls (nd j) = CItem \/ ncls (nd j) = CEntry.
  Proof. intro Hj. destruct (s_node _ S j Hj) as (p & _ & _ & P). unfold placed in P. destruct (ncls (nd j)); auto; contradiction. Qed.

  Lemma no_child s k : inside s k -> (forall e, In e (ids (elem_of s) r) -> k < e) -> s = k.
  Proof.
    intros I H. pose proof I as (I1 & I2 & I3 & I4). destruct (Nat.eq_dec s k) as [|Hne]; [assumption|]. exfalso. set (j := Datatypes.S s).
    assert (n_parent (nd j) = Some s /\ (ncls (nd j) = CElem \/ ncls (nd j) = CSec)) as [Hp Hc].
    { destruct (classes j ltac:(lia)) as [Hc|[Hc|Hc]].
      - split; [|auto]. apply (parent_elem s k); auto; [lia|]. intros. lia.
      - split; [|auto]. apply (parent_sec s k); auto; [lia|]. intros. lia.
      - exfalso. destruct (parent_part j ltac:(lia) Hc) as (p & P1 & P2 & P3 & P4). destruct (Nat.eq_dec p s) as [->|Hps].
        + destruct I3; congruence.
        + specialize (P4 s ltac:(lia)). destruct I3, Hc; destruct P4; congruence. }
    specialize (H j). rewrite in_elems in H. specialize (H ltac:(split; [lia|auto])). lia.
  Qed.
  Lemma into_section s k e : inside s k -> In e (ids (elem_of s) r) -> e <= k -> (forall y, In y (ids (elem_of s) r) -> y <= k -> y <= e) ->
    ncls (nd e) = CSec -> inside e k.
  Proof.
    intros I He Hek Hl Hc. pose proof I as (I1 & I2 & I3 & I4). apply in_elems in He as (E1 & E2 & _). pose proof (child_pos _ _ E1 E2) as E3.
    split; [assumption|]. split; [assumption|]. split; [now right|]. intros j Hj Hcj.
    destruct (s_node _ S e ltac:(lia)) as (p & P1 & P2 & P). assert (p = s) as -> by congruence. unfold placed in P. rewrite Hc in P. destruct P as (_ & P3 & _).
    pose proof (I4 j ltac:(lia) Hcj) as Hd. destruct (Nat.lt_ge_cases (odepth (nd e)) (odepth (nd j))) as [|Hle]; [assumption|]. exfalso.
    assert (n_parent (nd j) = Some s) as Hp.
    { apply (parent_sec s k); auto; [lia|]. intros i Hi Hci. pose proof (I4 i ltac:(lia) Hci). lia. }
    specialize (Hl j). rewrite in_elems in Hl. specialize (Hl ltac:(split; [lia|auto]) ltac:(lia)). lia.
  Qed.
  Lemma behind_elem s k e : inside s k -> In e (ids (elem_of s) r) -> e <= k -> (forall y, In y (ids (elem_of s) r) -> y <= k -> y <= e) ->
    ncls (nd e) = CElem -> forall j, e < j <= k -> n_parent (nd j) = Some e /\ (ncls (nd j) = CItem \/ ncls (nd j) = CEntry).
  Proof.
    intros I He Hek Hl Hc. pose proof I as (I1 & I2 & I3 & I4). apply in_elems in He as (E1 & E2 & _). pose proof (child_pos _ _ E1 E2) as E3.
    destruct (s_node _ S e ltac:(lia)) as (p & P1 & P2 & P). assert (p = s) as -> by congruence. unfold placed in P. rewrite Hc in P. destruct P as (_ & P3).
    intro j. induction j as [j IH] using lt_wf_ind. intro Hj.
    assert (forall i, s < i < j -> ncls (nd i) <> CSec) as Hno.
    { intros i Hi. destruct (Nat.lt_trichotomy i e) as [G|[->|G]]; [apply P3; lia|congruence|]. destruct (IH i ltac:(lia) ltac:(lia)) as [_ [G'|G']]; congruence. }
    destruct (classes j ltac:(lia)) as [Hcj|[Hcj|Hcj]].
    - exfalso. assert (n_parent (nd j) = Some s) as Hp by (apply (parent_elem s k); auto; lia).
      specialize (Hl j). rewrite in_elems in Hl. specialize (Hl ltac:(split; [lia|auto]) ltac:(lia)). lia.
    - exfalso. assert (n_parent (nd j) = Some s) as Hp by (apply (parent_sec s k); auto; [lia|intros i Hi Hci; exfalso; now apply (Hno i)]).
      specialize (Hl j). rewrite in_elems in Hl. specialize (Hl ltac:(split; [lia|auto]) ltac:(lia)). lia.
    - split; [|assumption]. destruct (parent_part j ltac:(lia) Hcj) as (p & Q1 & Q2 & Q3 & Q4). destruct (Nat.lt_trichotomy p e) as [G|[->|G]]; [|assumption|].
      + specialize (Q4 e ltac:(lia)). destruct Hcj; destruct Q4; congruence.
      + destruct (IH p ltac:(lia) ltac:(lia)) as [_ [G'|G']]; congruence.
  Qed.

  (** * Where elements end *)

  Lemma parts_in e x : e < length r -> In x (parts (nd e)) -> x < length r /\ e < x /\ n_parent (nd x) = Some e /\ (ncls (nd x) = CItem \/ ncls (nd x) = CEntry).
  Proof.
    intros He Hx. unfold parts in Hx. change (opt_list (n_items (nd e))) with (olist (n_items (nd e))) in Hx.
    change (opt_list (n_entries (nd e))) with (olist (n_entries (nd e))) in Hx. rewrite (ld_items _ _ L e He), (ld_entries _ _ L e He) in Hx.
    apply in_app_or in Hx as [Hx|Hx]; [apply in_items in Hx as (H1 & H2 & H3)|apply in_entries in Hx as (H1 & H2 & H3)];
      (repeat split; auto; eapply child_pos; eassumption).
  Qed.
  Lemma stretch_before e y : 0 < e < length r -> e < y < length r -> ncls (nd e) = CElem -> ncls (nd y) = CElem \/ ncls (nd y) = CSec -> stretch r e < begins (nd y).
  Proof.
    intros He Hy Hce Hcy. unfold stretch. destruct (parts (nd e)) as [|x l] eqn:E; [now apply (ld_order _ _ L)|].
    assert (In (last l x) (parts (nd e))) as Hin by (rewrite E; apply last_in_cons). destruct (parts_in e _ ltac:(lia) Hin) as (H1 & H2 & H3 & H4).
    set (z := last l x) in *. assert (z < y) as Hz.
    { destruct (Nat.lt_trichotomy z y) as [|[G|G]]; [assumption| |].
      - subst y. destruct Hcy, H4; congruence.
      - destruct (parent_part z ltac:(lia) H4) as (p & P1 & _ & _ & P4). assert (p = e) as -> by congruence. destruct (P4 y ltac:(lia)) as [P5 _]. destruct Hcy, H4; congruence. }
    pose proof (ld_order _ _ L z y ltac:(lia) ltac:(lia)). pose proof (own_bounds _ _ L z ltac:(lia)) as [_ B]. unfold le_ in B. lia.
  Qed.

  Lemma covers_cls i x : x < length r -> covers r i x <->
    (x = 0 \/ begins (nd x) <= i) /\
    match ncls (nd x) with
    | CDoc | CSec => True
    | CItem | CEntry => i <= finish (nd x) /\ exists p, n_parent (nd x) = Some p /\ i <= stretch r p
    | _ => i <= stretch r x
    end.
  Proof. intros _. unfold covers, covers_with, ncls. destruct (n_type (nd x)); reflexivity. Qed.

  (** * The main lemma *)

  (** [k] is the last instruction that begins at or before [i] *)
  Definition started (i k : nat) : Prop := k < length r /\ (k = 0 \/ begins (nd k) <= i) /\ forall y, k < y < length r -> i < begins (nd y).
  Lemma started_ex i : exists k, started i k.
  Proof.
    destruct (latest_ex (fun x => x = 0 \/ begins (nd x) <= i) (length r)) as (k & K1 & K2 & K3).
    - intro x. destruct (Nat.eq_dec x 0); [now left; left|]. destruct (le_dec (begins (nd x)) i); [now left; right|]. right. intuition.
    - apply (s_len _ S).
    - now left.
    - exists k. split; [assumption|]. split; [assumption|]. intros y Hy. specialize (K3 y Hy). lia.
  Qed.
  Lemma started_iff i k y : started i k -> 0 < y < length r -> begins (nd y) <= i <-> y <= k.
  Proof.
    intros (K1 & K2 & K3) Hy. split; intro H.
    - destruct (Nat.le_gt_cases y k) as [|G]; [assumption|]. specialize (K3 y ltac:(lia)). lia.
    - destruct K2 as [->|K2]; [lia|]. destruct (Nat.eq_dec y k) as [->|]; [assumption|]. pose proof (begins_mono _ _ L y k ltac:(lia) ltac:(lia)). lia.
  Qed.

  Definition found (i : nat) (m : lmatch) : Prop := innermost r i (lm_element m) /\ instr_at r (lm_element m) i (lm_instr m).

  (** nothing behind [x] covers a position up to the end of [x] *)
  Lemma innermost_finish i x : 0 < x < length r -> i <= finish (nd x) -> covers r i x -> innermost r i x.
  Proof.
    intros Hx Hi Hc. split; [lia|]. split; [assumption|]. intros y Hy [[->|G] _]; [lia|].
    pose proof (ld_order _ _ L x y ltac:(lia) ltac:(lia)). unfold begins in *. lia.
  Qed.

  Lemma rest_section s : s < length r -> sec_like (nd s) -> rest (nd s) = [].
  Proof.
    intros Hs Hl. destruct (ld_shape _ _ L s Hs) as (_ & _ & _ & T). unfold sec_like, ncls in Hl.
    unfold rest. destruct (n_type (nd s)); destruct Hl; try discriminate; destruct T as ((_ & _ & -> & ->) & ->); reflexivity.
  Qed.

  Lemma found_section i s : s < length r -> sec_like (nd s) -> s = 0 \/ begins (nd s) <= i /\ le_ (nd s) < i ->
    (forall y, s < y < length r -> ~ covers r i y) -> found i (nowhere s).
  Proof.
    intros Hs Hl Hi Hy. split; cbn [nowhere lm_element lm_instr].
    - split; [assumption|]. split; [|assumption]. apply covers_cls; [assumption|]. split; [tauto|]. destruct Hl as [->| ->]; exact I.
    - intros rs ([->|(l & Hin & ->)] & sp & Es & Ho).
      + destruct Hi as [->|[_ Hi]]; [rewrite (ld_doc _ _ L) in Es; discriminate|]. unfold le_, line_range in Hi. rewrite Es in Hi. unfold on in Ho. lia.
      + rewrite (rest_section s Hs Hl) in Hin. destruct Hin.
  Qed.

  Lemma items_sorted e : e < length r -> sorted (olist (n_items (nd e))).
  Proof. intro He. rewrite (ld_items _ _ L e He). apply ids_sorted. Qed.
  Lemma entries_sorted e : e < length r -> sorted (olist (n_entries (nd e))).
  Proof. intro He. rewrite (ld_entries _ _ L e He). apply ids_sorted. Qed.

  (** everything behind the last element does not cover the position if the element does not *)
  Lemma none_behind i k s e : started i k -> inside s k -> In e (ids (elem_of s) r) -> e <= k ->
    (forall y, In y (ids (elem_of s) r) -> y <= k -> y <= e) -> ncls (nd e) = CElem -> stretch r e < i ->
    forall y, s < y < length r -> ~ covers r i y.
  Proof.
    intros K I He Hek Hl Hc Hi y Hy Hcov. pose proof (behind_elem s k e I He Hek Hl Hc) as HB. apply in_elems in He as (E1 & E2 & _).
    pose proof (child_pos _ _ E1 E2) as E3. apply covers_cls in Hcov; [|lia]. destruct Hcov as [Hb Hcov].
    assert (y <= k) as Hyk. { destruct Hb as [->|Hb]; [lia|]. apply (started_iff i k y K); [lia|assumption]. }
    assert (begins (nd e) <= i) as Hbe by (apply (started_iff i k e K); [lia|assumption]).
    destruct (Nat.lt_trichotomy y e) as [G|[->|G]].
    - destruct (s_node _ S e ltac:(lia)) as (p & P1 & P2 & P). assert (p = s) as -> by congruence. unfold placed in P. rewrite Hc in P. destruct P as (_ & P3).
      pose proof (ld_order _ _ L y e ltac:(lia) ltac:(lia)) as O. destruct (classes y ltac:(lia)) as [C|[C|[C|C]]]; rewrite C in Hcov.
      + pose proof (stretch_before y e ltac:(lia) ltac:(lia) C (or_introl Hc)). lia.
      + now apply (P3 y ltac:(lia)).
      + lia.
      + lia.
    - rewrite Hc in Hcov. lia.
    - destruct (HB y ltac:(lia)) as [HP HC]. destruct HC as [HC|HC]; rewrite HC in Hcov; destruct Hcov as (_ & p & P1 & P2); assert (p = e) as -> by congruence; lia.
  Qed.

  (** a list or fieldset *)
  Lemma found_group i k s e es : started i k -> inside s k -> In e (ids (elem_of s) r) -> e <= k ->
    (forall y, In y (ids (elem_of s) r) -> y <= k -> y <= e) -> ncls (nd e) = CElem -> le_ (nd e) < i ->
    s = 0 \/ begins (nd s) <= i /\ le_ (nd s) < i ->
    parts (nd e) = olist es -> es <> Some [] -> sorted (olist es) -> rest (nd e) = [] ->
    exists m, (do x <- check_group_by_index r e es i; match x with Some m => Ok m | None => Ok (nowhere s) end) = Ok m /\ found i m.
  Proof.
    intros K I He Hek Hl Hc Hi Hsi Hp Hne Hs Hr. pose proof (behind_elem s k e I He Hek Hl Hc) as HB.
    pose proof (none_behind i k s e K I He Hek Hl Hc) as HN. pose proof I as (I1 & I2 & I3 & I4).
    apply in_elems in He as (E1 & E2 & _). pose proof (child_pos _ _ E1 E2) as E3.
    assert (begins (nd e) <= i) as Hbe by (apply (started_iff i k e K); [lia|assumption]).
    assert (forall c, In c (olist es) -> e < c < length r /\ plain_node (nd c) /\ n_conts (nd c) <> Some []) as Hes.
    { intros c Hin. rewrite <- Hp in Hin. destruct (parts_in e c ltac:(lia) Hin) as (C1 & C2 & C3 & C4). split; [lia|].
      destruct (ld_shape _ _ L c C1) as (D1 & _ & _ & D2). split; [|assumption]. unfold ncls in C4. destruct (n_type (nd c)); destruct C4; try discriminate; exact D2. }
    pose proof (check_group_ok inp r L e i es ltac:(lia) Hi Hs Hne Hr Hes) as HG. unfold stretch in HN. rewrite Hp in HN.
    assert ((forall y, s < y < length r -> ~ covers r i y) -> found i (nowhere s)) as HS by (intro H; apply found_section; auto; lia).
    destruct (olist es) as [|x l] eqn:Eo.
    - rewrite HG. cbn [bind]. exists (nowhere s). split; [reflexivity|]. apply HS, HN. unfold finish. rewrite Hr. exact Hi.
    - destruct (Nat.leb_spec i (le_ (nd (last l x)))) as [H|H].
      + destruct HG as (m & M1 & M2). rewrite M1. cbn [bind]. exists m. split; [reflexivity|].
        assert (stretch r e = le_ (nd (last l x))) as Hst by (unfold stretch; rewrite Hp; reflexivity).
        destruct M2 as [(c & C1 & C2 & C3 & C4)|(-> & (M2 & M3) & M4)].
        * unfold found. rewrite C3. split; [|assumption]. destruct (Hes c C1) as (D1 & D2). apply innermost_finish; [lia|lia|].
          apply covers_cls; [lia|]. split; [right; lia|]. rewrite <- Hp in C1. destruct (parts_in e c ltac:(lia) C1) as (F1 & F2 & F3 & F4).
          destruct F4 as [F4|F4]; rewrite F4; (split; [lia|]; exists e; split; [assumption|lia]).
        * split; [|assumption]. cbn [nowhere lm_element]. split; [lia|]. split.
          -- apply covers_cls; [lia|]. split; [now right|]. rewrite Hc. lia.
          -- intros y Hy Hcov. apply covers_cls in Hcov; [|lia]. destruct Hcov as [[->|Hb] Hcov]; [lia|].
             assert (y <= k) as Hyk by (apply (started_iff i k y K); [lia|assumption]). destruct (HB y ltac:(lia)) as [HP HC].
             assert (i <= finish (nd y)) as Hf by (destruct HC as [HC|HC]; rewrite HC in Hcov; apply Hcov).
             apply (M4 y); [|lia]. rewrite <- Hp. unfold parts. change (opt_list (n_items (nd e))) with (olist (n_items (nd e))).
             change (opt_list (n_entries (nd e))) with (olist (n_entries (nd e))). rewrite (ld_items _ _ L e E1), (ld_entries _ _ L e E1).
             apply in_or_app. destruct HC as [HC|HC]; [left; apply in_items|right; apply in_entries]; (split; [lia|auto]).
      + rewrite HG. cbn [bind]. exists (nowhere s). split; [reflexivity|]. apply HS, HN. exact H.
  Qed.

  Theorem index_found i k : started i k -> forall fuel s, inside s k -> length r <= fuel + s -> s = 0 \/ begins (nd s) <= i /\ le_ (nd s) < i ->
    exists m, check_in_section_by_index r fuel s i = Ok m /\ found i m.
  Proof.
    intros K. induction fuel as [|fuel IH]; intros s I Hf Hsi; pose proof I as (I1 & I2 & I3 & I4); [lia|]. cbn [check_in_section_by_index].
    rewrite (ld_elems _ _ L s ltac:(lia)). pose proof (find_last (fun e => negb (Nat.ltb i (lb (nd e)))) _ (ids_sorted (elem_of s) r)) as HF.
    assert (forall y, In y (ids (elem_of s) r) -> s < y < length r) as Hpos.
    { intros y Hy. apply in_elems in Hy as (Y1 & Y2 & _). pose proof (child_pos _ _ Y1 Y2). lia. }
    assert (forall y, In y (ids (elem_of s) r) -> negb (Nat.ltb i (lb (nd y))) = true <-> y <= k) as Hiff.
    { intros y Hy. specialize (Hpos y Hy). rewrite negb_true_iff, Nat.ltb_ge. apply (started_iff i k y K). lia. }
    destruct (find _ (rev (ids (elem_of s) r))) as [e|].
    2:{ exists (nowhere s). split; [reflexivity|]. assert (s = k) as ->.
        { apply no_child; [assumption|]. intros y Hy. specialize (HF y Hy). destruct (Nat.le_gt_cases y k) as [G|]; [|assumption]. apply (Hiff y Hy) in G. congruence. }
        apply found_section; auto. intros y Hy [[->|G] _]; [lia|]. apply (started_iff i k y K) in G; lia. }
    destruct HF as (F1 & F2 & F3). apply (Hiff e F1) in F2.
    assert (forall y, In y (ids (elem_of s) r) -> y <= k -> y <= e) as Hl by (intros y Hy G; apply F3; [assumption|now apply (Hiff y Hy)]).
    clear F3. pose proof (Hpos e F1) as He. assert (begins (nd e) <= i) as Hbe by (apply (started_iff i k e K); [lia|assumption]).
    destruct (own_bounds _ _ L e ltac:(lia)) as [B1 B2]. cbn zeta.
    assert (ncls (nd e) = CElem \/ ncls (nd e) = CSec) as Hc by (apply in_elems in F1; tauto).
    destruct (Nat.leb_spec i (le_ (nd e))) as [H|H].
    { exists (here r e). split; [reflexivity|]. destruct (matched_here inp r L e i ltac:(lia) Hbe H) as [_ M]. split; [|exact M]. cbn [here lm_element].
      apply innermost_finish; [lia|lia|]. apply covers_cls; [lia|]. split; [now right|]. destruct Hc as [Hc|Hc]; rewrite Hc; [|exact Logic.I].
      unfold stretch. destruct (parts (nd e)) as [|x l] eqn:Ep; [lia|]. assert (In (last l x) (parts (nd e))) as Hin by (rewrite Ep; apply last_in_cons).
      destruct (parts_in e _ ltac:(lia) Hin) as (Q1 & Q2 & _). pose proof (begins_mono _ _ L e (last l x) ltac:(lia) ltac:(lia)).
      pose proof (ld_order _ _ L e (last l x) ltac:(lia) ltac:(lia)). pose proof (own_bounds _ _ L (last l x) ltac:(lia)) as [B3 _]. unfold le_, begins in *. lia. }
    destruct (ld_shape _ _ L e ltac:(lia)) as (D1 & D2 & D3 & D4). unfold ncls in Hc.
    assert (sorted (olist (n_items (nd e))) /\ sorted (olist (n_entries (nd e)))) as [So1 So2] by (split; [apply items_sorted|apply entries_sorted]; lia).
    (* what is behind an element without parts *)
    assert (ncls (nd e) = CElem -> parts (nd e) = [] -> forall m, finish (nd e) < i -> m = nowhere s -> found i m) as HNone.
    { intros Hce Hp m Hfi ->. apply found_section; auto; [lia|]. apply (none_behind i k s e K I F1 F2 Hl Hce). unfold stretch. rewrite Hp. assumption. }
    assert (ncls (nd e) = CElem -> parts (nd e) = [] -> i <= finish (nd e) -> covers r i e) as HCov.
    { intros Hce Hp Hfi. apply covers_cls; [lia|]. split; [now right|]. rewrite Hce. unfold stretch. now rewrite Hp. }
    destruct (n_type (nd e)) eqn:Ety; cbn [cls] in Hc; try (destruct Hc; discriminate).
    - (* empty element *)
      destruct D4 as ((N1 & N2 & N3 & N4) & N5). exists (nowhere s). split; [reflexivity|]. apply HNone; [unfold ncls; now rewrite Ety| | |reflexivity].
      + unfold parts. now rewrite N1, N2.
      + unfold finish, rest. rewrite N3, N4, N5. exact H.
    - (* field *)
      destruct D4 as (N1 & N2 & N3 & N4). pose proof (check_field_ok inp r L e i ltac:(lia) Hbe N3 N4 D1) as HK.
      assert (ncls (nd e) = CElem) as Hce by (unfold ncls; now rewrite Ety). assert (parts (nd e) = []) as Hp by (unfold parts; now rewrite N1, N2).
      destruct (Nat.leb_spec i (finish (nd e))) as [G|G].
      + destruct HK as (m & M1 & M2 & M3). rewrite M1. cbn [bind]. exists m. split; [reflexivity|]. unfold found. rewrite M2. split; [|assumption].
        apply innermost_finish; [lia|assumption|now apply HCov].
      + rewrite HK. cbn [bind]. exists (nowhere s). split; [reflexivity|]. now apply HNone.
    - (* fieldset *)
      destruct D4 as (N1 & N2 & N3 & N4). apply (found_group i k s e (n_entries (nd e)) K I F1 F2 Hl); auto; [unfold ncls; now rewrite Ety| |].
      + unfold parts. now rewrite N1.
      + unfold rest. now rewrite N2, N3, N4.
    - (* list *)
      destruct D4 as (N1 & N2 & N3 & N4). apply (found_group i k s e (n_items (nd e)) K I F1 F2 Hl); auto; [unfold ncls; now rewrite Ety| |].
      + unfold parts. rewrite N1. cbn. apply app_nil_r.
      + unfold rest. now rewrite N2, N3, N4.
    - (* multiline field *)
      destruct D4 as (N1 & N2 & N3 & N4 & N5). rewrite N4. cbn [opt_is].
      pose proof (check_multiline_ok inp r L e i ltac:(lia) Hbe Ety) as HK.
      assert (ncls (nd e) = CElem) as Hce by (unfold ncls; now rewrite Ety). assert (parts (nd e) = []) as Hp by (unfold parts; now rewrite N1, N2).
      destruct (Nat.leb_spec i (finish (nd e))) as [G|G].
      + destruct HK as (m & M1 & M2 & M3). rewrite M1. cbn [bind]. exists m. split; [reflexivity|]. unfold found. rewrite M2. split; [|assumption].
        apply innermost_finish; [lia|assumption|now apply HCov].
      + rewrite HK. cbn [bind]. exists (nowhere s). split; [reflexivity|]. now apply HNone.
    - (* section *)
      apply IH; [|lia|right; lia]. apply (into_section s k e I F1 F2 Hl). unfold ncls. now rewrite Ety.
  Qed.

  Theorem by_index i : exists m, check_in_section_by_index r (Datatypes.S (length r)) 0 i = Ok m /\ found i m.
  Proof.
    destruct (started_ex i) as [k K]. apply (index_found i k K); [|lia|now left]. destruct K as (K1 & _ & _). split; [lia|]. split; [assumption|].
    split; [left; apply (s_doc _ S)|]. intros j Hj Hc. unfold odepth at 1. rewrite (s_doc _ S).
    destruct (s_node _ S j ltac:(lia)) as (p & _ & _ & P). unfold placed in P. rewrite Hc in P. destruct P as (_ & P & _). rewrite P. lia.
  Qed.
End Doc.
