(** SnippetCover: the index of a report holds every line that was read. *)
From Coq Require Import Permutation.
From Verif Require Import Base Regex Grammar Types Messages Scan Analyzer TokenStep ScanProofs ScanFacts StepProofs HeapFacts AnalyzerInv AnalyzerLoop StepChange SpecText AnalyzerText AnalyzerTiles
  AnalyzerLines AnalyzerFinal AnalyzerBounds SpecTree AnalyzerTree Resolver SpecResolve ResolverIndex ResolverFields ResolverSections ResolverFinal ResolverComments ReadLinks
  Reporter Errors Context Elements Session Faults SpecLookup SpecSelect SpecRead SpecApi Reads ReporterFacts ReporterTags ParseErrors ParseContext ParseOutcome SpecErrors ParseTexts PropAnalysisProofs
  LookupDoc LookupProofs LookupAgree CommentLines RegexBounds SelectProofs ApiDoc ApiInv ApiState ApiOps SessionInv SessionRun PropLookupProofs FaultProofs PropErrorsProofs SpecReport SpecSnippet SnippetRows.

(** * Lines of a text *)

Definition the_line (inp : text) (k b e : nat) : Prop :=
  begins_line inp b /\ b <= e /\ e <= length inp /\ ends_line inp e /\ single_line inp (b, e) /\ line_feeds_before inp b = k.

Lemma line_begin inp k : forall m, m <= length inp -> k <= line_feeds_before inp m -> exists b, begins_line inp b /\ b <= m /\ line_feeds_before inp b = k.
Proof.
  induction m as [|m IH]; intros Hm Hk.
  - exists 0. split; [now left|]. split; [lia|]. unfold line_feeds_before in *. cbn in *. lia.
  - destruct (Nat.le_gt_cases k (line_feeds_before inp m)) as [H|H].
    + destruct (IH ltac:(lia) H) as (b & H1 & H2 & H3). exists b. auto.
    + destruct (nth_error inp m) as [x|] eqn:E; [|apply nth_error_None in E; lia].
      assert (x = nl) as ->.
      { destruct (N.eq_dec x nl) as [|Hne]; [assumption|exfalso]. rewrite (feeds_same inp m (S m)) in Hk; [lia|lia|].
        rewrite (slice_one _ _ _ E). intros [G|[]]. congruence. }
      exists (S m). split; [right; cbn; now rewrite Nat.sub_0_r|]. split; [lia|]. rewrite (feeds_nl _ _ E) in *. lia.
Qed.
Lemma line_stop inp : forall n b, b + n = length inp -> exists e, b <= e /\ e <= length inp /\ ends_line inp e /\ single_line inp (b, e).
Proof.
  induction n as [|n IH]; intros b Hb.
  - exists b. split; [lia|]. split; [lia|]. split; [left; lia|]. unfold single_line, at_range, slice. cbn [fst snd]. rewrite Nat.sub_diag. intros [].
  - destruct (nth_error inp b) as [x|] eqn:E; [|apply nth_error_None in E; lia]. destruct (N.eq_dec x nl) as [->|Hne].
    + exists b. split; [lia|]. split; [lia|]. split; [now right|]. unfold single_line, at_range, slice. cbn [fst snd]. rewrite Nat.sub_diag. intros [].
    + destruct (IH (S b) ltac:(lia)) as (e & H1 & H2 & H3 & H4). exists e. split; [lia|]. split; [assumption|]. split; [assumption|].
      unfold single_line, at_range, slice in *. cbn [fst snd] in *. replace (e - b) with (S (e - S b)) by lia.
      assert (skipn b inp = x :: skipn (S b) inp) as ->.
      { clear - E. revert inp E. induction b as [|b IH]; intros [|y inp] E; try discriminate; cbn in *; [congruence|]. now apply IH. }
      cbn [firstn]. intros [G|G]; [congruence|now apply H4].
Qed.
Lemma line_exists inp k : k <= line_feeds_before inp (length inp) -> exists b e, the_line inp k b e.
Proof.
  intro H. destruct (line_begin inp k (length inp) (le_n _) H) as (b & H1 & H2 & H3). destruct (line_stop inp (length inp - b) b ltac:(lia)) as (e & E1 & E2 & E3 & E4).
  exists b, e. repeat (split; [assumption|]). assumption.
Qed.
Lemma the_is_line inp k b e : the_line inp k b e -> is_line inp k (at_range inp (b, e)).
Proof. intros (H1 & H2 & H3 & H4 & H5 & H6). exists b, e. repeat (split; [assumption|]). reflexivity. Qed.

Lemma tile_at inp i l j b : tiles inp i l j -> i <= b -> b < j -> exists s, In s l /\ fst s <= b <= snd s /\ snd s <= length inp /\ ends_line inp (snd s).
Proof.
  intro H. induction H as [i|i e l j H1 H2 H3 H4 IH]; intros Hi Hb; [lia|]. destruct (Nat.le_gt_cases b e) as [G|G].
  - exists (i, e). cbn. split; [now left|]. auto.
  - destruct (IH ltac:(lia) Hb) as (s & S1 & S2). exists s. split; [now right|assumption].
Qed.
Lemma end_before inp b e e' : single_line inp (b, e) -> ends_line inp e' -> b <= e' -> e <= length inp -> e <= e'.
Proof.
  intros Hs He' Hb Hl. destruct (Nat.le_gt_cases e e') as [|H]; [assumption|exfalso]. destruct He' as [->|He']; [lia|].
  pose proof (feeds_nl _ _ He') as F. unfold single_line, at_range in Hs. cbn [fst snd] in Hs.
  rewrite (feeds_same inp e' (S e')) in F; [lia|lia|]. apply (slice_sub inp b e); [lia|lia|assumption].
Qed.
Lemma blank_sub inp a b c d : a <= c -> d <= b -> blank inp (a, b) -> blank inp (c, d).
Proof.
  unfold blank, at_range, slice. cbn [fst snd]. intros H1 H2 H. destruct (Nat.le_gt_cases d c) as [G|G]; [replace (d - c) with 0 by lia; reflexivity|].
  replace (b - a) with ((c - a) + ((d - c) + (b - d))) in H by lia. rewrite !firstn_add, !forallb_app in H. apply andb_true_iff in H as [_ H]. apply andb_true_iff in H as [H _].
  rewrite skipn_plus in H. now replace (c - a + a) with c in H by lia.
Qed.

Lemma tiled_lines inp l j (Q : nat * nat -> Prop) : tiles inp 0 l j -> length inp <= j ->
  (forall s, In s l -> blank inp s \/ single_line inp s /\ Q s) ->
  forall k, k <= line_feeds_before inp (length inp) -> exists b e, the_line inp k b e /\ (blank inp (b, e) \/ Q (b, e)).
Proof.
  intros Ht Hj Hl k Hk. destruct (line_exists inp k Hk) as (b & e & Hbe). exists b, e. split; [assumption|]. destruct Hbe as (H1 & H2 & H3 & H4 & H5 & H6).
  destruct (Nat.lt_ge_cases b j) as [Hb|Hb].
  2:{ left. unfold blank, at_range, slice. cbn [fst snd]. now replace (e - b) with 0 by lia. }
  destruct (tile_at _ _ _ _ b Ht ltac:(lia) Hb) as ([b' e'] & S1 & S2 & S3 & S4). cbn [fst snd] in *.
  pose proof (end_before inp b e e' H5 S4 ltac:(lia) H3) as He. destruct (Hl _ S1) as [H|[Hs Hq]].
  - left. apply (blank_sub inp b' e'); [lia|lia|assumption].
  - assert (b = b') as <-.
    { destruct (Nat.eq_dec b b') as [|Hne]; [assumption|exfalso]. destruct H1 as [->|H1]; [lia|]. pose proof (feeds_nl _ _ H1) as F. replace (S (b - 1)) with b in F by lia.
      unfold single_line, at_range in Hs. cbn [fst snd] in Hs. rewrite (feeds_same inp (b - 1) b) in F; [lia|lia|]. apply (slice_sub inp b' e'); [lia|lia|assumption]. }
    assert (e = e') as <- by (apply Nat.le_antisymm; [assumption|]; apply (end_before inp b e' e); auto). now right.
Qed.

(** * Instructions in the index *)

Section Cover.
  Context (c : ctx) (Hwf : WF c) (h0 : heap) (HD : DInv h0) (Ht : same_text h0 (c_heap c)) (Hk : kept_parts h0 (c_heap c)).
  Local Notation h := (c_heap c).

  Lemma up_covers : forall s j, s < length h -> sec_like (hget h s) -> below_covers c s j -> below_covers c 0 j.
  Proof.
    intro s. induction s as [s IH] using lt_wf_ind. intros j Hs Hl Hb. destruct (Nat.eq_dec s 0) as [->|Hne]; [assumption|].
    pose proof (wf_shape _ Hwf) as HS. destruct (s_node _ (sh_s _ HS) s ltac:(lia)) as (p & P1 & P2 & P3).
    unfold placed in P3. destruct Hl as [Hl|Hl]; rewrite Hl in P3; [destruct P3|]. destruct P3 as (P3 & _).
    apply (IH p P2); [lia|assumption|]. apply (bc_sub c p s j); [| |assumption].
    - rewrite (sh_elems _ HS p ltac:(lia)). apply in_ids. split; [assumption|]. unfold elem_of, has_parent, is_cls. rewrite P1, Hl, Nat.eqb_refl. reflexivity.
    - unfold ncls, cls in Hl. destruct (n_type (hget h s)); try discriminate. reflexivity.
  Qed.
  Lemma own_part i n s : 0 < i < length h -> In (n, s) (node_nums (hget h0 i)) -> n = n_line (hget h i) \/ (exists l, In l (olist (n_comments (hget h i))) /\ n = l_line l) \/
    exists l, In l (rest (hget h i)) /\ n = l_line l.
  Proof.
    intros Hi H. rewrite node_nums_hanging in H. destruct (text_rest _ _ (proj2 Ht i)) as (E1 & E2 & E3 & _). rewrite E1, E3.
    apply in_app_or in H as [H|[H|H]].
    - right. left. apply in_map_iff in H as (l & E & H). exists l. injection E as <- _. split; [|reflexivity]. destruct (Hk i) as [K _].
      rewrite K; [assumption|]. intro G. rewrite G in H. destruct H.
    - left. congruence.
    - right. right. apply in_map_iff in H as (l & E & H). exists l. injection E as <- _. auto.
  Qed.
  Lemma read_covers i n s : 0 < i < length h -> In (n, s) (node_nums (hget h0 i)) -> below_covers c 0 n.
  Proof.
    intros Hi Hn. pose proof (wf_shape _ Hwf) as HS. destruct (s_node _ (sh_s _ HS) i Hi) as (p & P1 & P2 & P3). destruct Ht as [Hl Htx].
    pose proof (d_type _ HD i ltac:(lia)) as [_ Hty]. destruct (Hk i) as [_ Kt]. apply (own_part i n s Hi) in Hn.
    destruct (text_fields _ _ (Htx i)) as (_ & _ & _ & _ & _ & _ & _ & _ & T3 & T4 & T5 & _). destruct (text_rest _ _ (Htx i)) as (Er & _).
    assert (ncls (hget h i) = ncls (hget h0 i)) as Ec by (pose proof (Htx i) as G; unfold text_part in G; congruence).
    assert (forall x, ncls (hget h i) = x -> (x = CElem \/ x = CSec) -> sec_like (hget h p) -> below_covers c 0 n) as Kel.
    { intros x Ex Hx Hp. apply (up_covers p); [lia|assumption|]. apply (bc_own c p i).
      - rewrite (sh_elems _ HS p ltac:(lia)). apply in_ids. split; [lia|]. unfold elem_of, has_parent, is_cls. rewrite P1, Ex, Nat.eqb_refl. destruct Hx as [-> | ->]; reflexivity.
      - unfold own_covers. destruct Hn as [->|[(l & L1 & ->)|(l & L1 & ->)]]; [now left|right; left; eauto|right; right].
        unfold rest in L1. unfold plain_node in Hty. rewrite T3, T4, T5 in *. destruct Kt as [->|Kt].
        + rewrite Ex in Ec. unfold ncls, cls in Ec. destruct (n_type (hget h0 i)); try (destruct Hx; subst x; discriminate);
            repeat match goal with G : _ /\ _ |- _ => destruct G end; repeat match goal with G : _ = None |- _ => rewrite G in *; clear G end; cbn [olist app] in L1.
          all: try (now destruct L1).
          * rewrite app_nil_r in L1. eauto.
          * apply in_app_or in L1 as [L1|L1]; [right; eauto|left]. destruct (n_end (hget h0 i)) as [l'|]; [|destruct L1]. destruct L1 as [->|[]]. eauto.
        + rewrite Kt in Hty. repeat match goal with G : _ /\ _ |- _ => destruct G end; repeat match goal with G : _ = None |- _ => rewrite G in *; clear G end. destruct L1. }
    assert (ncls (hget h i) = HeapFacts.CItem \/ ncls (hget h i) = HeapFacts.CEntry -> cont_covers c i n) as Kcc.
    { intro G. assert (rest (hget h i) = olist (n_conts (hget h i))) as Hr.
      { unfold rest. rewrite T3, T4, T5. rewrite Ec in G. unfold ncls, cls in G. unfold plain_node in Hty.
        destruct (n_type (hget h0 i)); try (destruct G; discriminate); destruct Hty as [(_ & _ & -> & ->) _]; cbn; now rewrite app_nil_r. }
      destruct Hn as [->|[(l & L1 & ->)|(l & L1 & ->)]]; [now left| |]; right; exists l; (split; [apply in_or_app|reflexivity]); [now left|right; now rewrite <- Hr]. }
    assert (ncls (hget h p) = CElem -> (n_type (hget h p) = LIST /\ In i (olist (n_items (hget h p)))) \/ (n_type (hget h p) = FIELDSET /\ In i (olist (n_entries (hget h p)))) ->
      cont_covers c i n -> below_covers c 0 n) as Kg.
    { intros Gp Gi Gc. destruct (Nat.eq_dec p 0) as [->|Hp]; [pose proof (s_doc _ (sh_s _ HS)); congruence|].
      destruct (s_node _ (sh_s _ HS) p ltac:(lia)) as (q & Q1 & Q2 & Q3). unfold placed in Q3. rewrite Gp in Q3. destruct Q3 as [Q3 _].
      apply (up_covers q); [lia|assumption|]. apply (bc_own c q p).
      - rewrite (sh_elems _ HS q ltac:(lia)). apply in_ids. split; [lia|]. unfold elem_of, has_parent, is_cls. rewrite Q1, Gp, Nat.eqb_refl. reflexivity.
      - right. right. destruct Gi as [[-> Gi]|[-> Gi]]; exists i; auto. }
    assert (forall p, p < length h -> n_type (hget h0 p) <> EMPTY_ELEMENT -> n_type (hget h p) = n_type (hget h0 p)) as Kty by (intros p' _ Hp'; destruct (Hk p') as [_ [G|G]]; [assumption|contradiction]).
    pose proof (d_type _ HD p ltac:(lia)) as [_ Hpt]. unfold plain_node in Hpt.
    destruct (text_fields _ _ (Htx p)) as (_ & _ & _ & _ & _ & _ & X1 & X2 & _).
    unfold placed in P3. destruct (ncls (hget h i)) eqn:Ei; try contradiction.
    - apply (Kel _ eq_refl); tauto.
    - apply (Kel _ eq_refl); tauto.
    - apply Kg; [tauto| |apply Kcc; auto]. left. assert (In i (olist (n_items (hget h p)))) as Hin.
      { rewrite (sh_items _ HS p ltac:(lia)). apply in_ids. split; [lia|]. unfold item_of, has_parent, is_cls. now rewrite P1, Ei, Nat.eqb_refl. }
      split; [|assumption]. rewrite X1 in Hin. assert (n_type (hget h0 p) = LIST) as El.
      { destruct (n_type (hget h0 p)); try reflexivity; repeat match goal with G : _ /\ _ |- _ => destruct G end; try contradiction;
          match goal with G : n_items (hget h0 p) = None |- _ => rewrite G in Hin; destruct Hin end. }
      rewrite <- El. apply Kty; [lia|congruence].
    - apply Kg; [tauto| |apply Kcc; auto]. right. assert (In i (olist (n_entries (hget h p)))) as Hin.
      { rewrite (sh_entries _ HS p ltac:(lia)). apply in_ids. split; [lia|]. unfold entry_of, has_parent, is_cls. now rewrite P1, Ei, Nat.eqb_refl. }
      split; [|assumption]. rewrite X2 in Hin. assert (n_type (hget h0 p) = FIELDSET) as El.
      { destruct (n_type (hget h0 p)); try reflexivity; repeat match goal with G : _ /\ _ |- _ => destruct G end; try contradiction;
          match goal with G : n_entries (hget h0 p) = None |- _ => rewrite G in Hin; destruct Hin end. }
      rewrite <- El. apply Kty; [lia|congruence].
  Qed.
End Cover.

(** * Contents of the index *)

Section Rows.
  Context (c : ctx) (Hwf : WF c) (Hs : single_lines (c_input c) (c_heap c)) (Hti : Tidy (c_input c) (c_heap c) (c_meta c)).
  Local Notation inp := (c_input c).

  (** shown behind the last line: nothing *)
  Definition past (l : leaf) : Prop := (exists b e, l_ranges l = [(R_line, (b, e))] /\ slice inp b e = []) /\ l_line l = S (line_feeds_before inp (length inp)).
  Lemma nested_line rs n : nested inp rs -> single_line inp (line_range rs) -> n = line_feeds_before inp (fst (line_range rs)) ->
    exists b e, rget rs R_line = Some (b, e) /\ is_line inp n (slice inp b e).
  Proof.
    intros (b & e & E & H1 & H2 & H3 & H4 & _) H5 H6. exists b, e. split; [assumption|]. unfold line_range in *. rewrite E in *. cbn [fst] in H6.
    exists b, e. repeat (split; [assumption|]). split; [now rewrite H6|reflexivity].
  Qed.
  Lemma index_line (P : Prop) ix j ri : (forall l, In l (c_meta c) -> nested inp (l_ranges l) \/ P /\ past l) -> build_index c = Ok ix -> nth_error ix j = Some (Some ri) ->
    (exists t, line_content c ri = Ok t /\ (is_line inp j t \/ P /\ t = [] /\ j = S (line_feeds_before inp (length inp)))) /\ drawable inp (ri_ranges ri).
  Proof.
    intros Hm Hb Hn. destruct (build_index_ok c Hwf) as (ix' & E & [_ H] & _). assert (ix' = ix) as -> by congruence. destruct Hti as [T1 T2].
    assert (forall rs n, nested inp rs -> single_line inp (line_range rs) -> n = line_feeds_before inp (fst (line_range rs)) -> ri_ranges ri = rs -> n = j ->
      (exists t, line_content c ri = Ok t /\ (is_line inp j t \/ P /\ t = [] /\ j = S (line_feeds_before inp (length inp)))) /\ drawable inp (ri_ranges ri)) as K.
    { intros rs n K1 K2 K3 K4 <-. split; [|left; now rewrite K4]. destruct (nested_line rs n K1 K2 K3) as (b & e & E1 & E2). exists (slice inp b e). split; [|now left]. unfold line_content. now rewrite K4, E1. }
    destruct (H j ri Hn) as [(i & Hi & Ej & ->)|[(i & l & Hi & Hl & Ej & ->)|(l & Hl & Ej & ->)]].
    - destruct (wf_text _ Hwf i Hi) as (N1 & _). destruct (T1 i Hi) as [M1 _]. apply (K (n_ranges (hget (c_heap c) i)) (n_line (hget (c_heap c) i))); auto.
      rewrite Forall_forall in M1. apply (M1 (_, _)). rewrite node_nums_hanging. apply in_or_app. right. now left.
    - destruct (wf_text _ Hwf i Hi) as (_ & _ & _ & _ & _ & N1). destruct (T1 i Hi) as [M1 M2]. unfold singles in M2. rewrite Forall_forall in N1, M1, M2.
      apply (K (l_ranges l) (l_line l)); auto; [now apply N1|now apply M2|]. apply (M1 (_, _)). rewrite node_nums_hanging. rewrite hanging_rest in Hl. apply in_app_or in Hl as [Hl|Hl]; apply in_or_app.
      + left. now apply (in_map leaf_num _ l).
      + right. right. now apply (in_map leaf_num _ l).
    - destruct (Hm l Hl) as [Hne|(HP & (b & e & E1 & E2) & E3)].
      + destruct (T2 l Hl Hne) as [M1 M2]. apply (K (l_ranges l) (l_line l)); auto.
      + split; [|right; exists (b, e); exact E1]. exists []. split; [|right; split; [assumption|]; split; [reflexivity|congruence]]. unfold line_content. cbn [leaf_info ri_ranges]. rewrite E1. cbn. now rewrite E2.
  Qed.
  Lemma shows (lost : text -> Prop) (P : Prop) : (forall l, In l (c_meta c) -> nested inp (l_ranges l) \/ P /\ past l) ->
    (forall ix k, build_index c = Ok ix -> k < c_line_count c -> covers ix k \/ exists b e, the_line inp k b e /\ lost (at_range inp (b, e))) ->
    shows_all c (fun k x => stands_for lost inp k x \/ P /\ x = [] /\ k = S (line_feeds_before inp (length inp))).
  Proof.
    intros Hm Hc ix Hb j Hj. destruct (Hc ix j Hb Hj) as [[ri Hri]|(b & e & H1 & H2)].
    - rewrite Hri. destruct (index_line P ix j ri Hm Hb Hri) as [(t & E & [Ht|Ht]) Hd]; (split; [|exact Hd]); exists t; (split; [assumption|]); [left|now right]. exists t. auto.
    - destruct (nth_error ix j) as [[ri|]|] eqn:Eix.
      + destruct (index_line P ix j ri Hm Hb Eix) as [(t & E & [Ht|Ht]) Hd]; (split; [|exact Hd]); exists t; (split; [assumption|]); [left|now right]. exists t. auto.
      + left. exists (at_range inp (b, e)). split; [now apply the_is_line|auto].
      + left. exists (at_range inp (b, e)). split; [now apply the_is_line|auto].
  Qed.
End Rows.

Lemma shows_weaken c (A B : nat -> text -> Prop) : (forall k x, A k x -> B k x) -> shows_all c A -> shows_all c B.
Proof.
  intros H Ha ix Hb j Hj. specialize (Ha ix Hb j Hj). destruct (nth_error ix j) as [[ri|]|]; auto. destruct Ha as [(t & E & Ht) Hd]. eauto.
Qed.

(** * Documents read to the end *)

Section Read.
  Context (inp : text) (loc : locale) (rk : reporter_kind) (src : option text).
  Local Notation mk := (MkCtx inp loc rk src).

  Lemma in_heap_lines h s : In s (heap_lines h) -> exists i n, 0 < i < length h /\ In (n, s) (node_nums (hget h i)).
  Proof.
    unfold heap_lines. intro H. apply in_flat_map in H as (x & Hx & H). apply In_nth with (d := document_node) in Hx as (k & Hk & <-).
    assert (nth k (tl h) document_node = hget h (S k)) as E by (destruct h; [destruct k; reflexivity|reflexivity]). rewrite E in H.
    exists (S k). assert (0 < S k < length h) as Hi by (destruct h; cbn in *; lia).
    unfold node_lines in H. apply in_app_or in H as [H|[H|H]].
    - apply in_map_iff in H as (l & <- & H). exists (l_line l). split; [assumption|]. unfold node_nums. apply in_or_app. left. now apply (in_map leaf_num _ l).
    - exists (n_line (hget h (S k))). split; [assumption|]. unfold node_nums. apply in_or_app. right. left. now rewrite H.
    - apply in_map_iff in H as (l & <- & H). exists (l_line l). split; [assumption|]. unfold node_nums. apply in_or_app. right. right. now apply (in_map leaf_num _ l).
  Qed.
  Lemma num_single h0 meta i n s : single_lines inp h0 -> Tidy inp h0 meta -> 0 < i < length h0 -> In (n, s) (node_nums (hget h0 i)) -> single_line inp s /\ n = line_feeds_before inp (fst s).
  Proof.
    intros Hs [T _] Hi H. destruct (T i Hi) as [T1 T2]. unfold singles in T2. rewrite Forall_forall in T1, T2. split; [|now apply (T1 (n, s))].
    rewrite hanging_rest in T2. rewrite node_nums_hanging in H. apply in_app_or in H as [H|[H|H]].
    - apply in_map_iff in H as (l & E & H). injection E as _ <-. apply T2. apply in_or_app. now left.
    - injection H as _ <-. now apply Hs.
    - apply in_map_iff in H as (l & E & H). injection E as _ <-. apply T2. apply in_or_app. now right.
  Qed.
  Lemma complete_shows st lc h : analyze inp = AOk st lc -> WF (mk h (a_meta st) lc) -> same_text (a_heap st) h -> kept_parts (a_heap st) h ->
    single_lines inp h -> Tidy inp h (a_meta st) -> shows_all (mk h (a_meta st) lc) (stands_for blank_text inp).
  Proof.
    intros Ha Hwf Ht Hk Hs Hti. pose proof (analysed _ _ _ Ha) as HA.
    assert (single_lines inp (a_heap st)) as Hs0.
    { intros x Hx. destruct Ht as [Hl Ht]. destruct (text_rest _ _ (Ht x)) as (_ & E & _). rewrite <- E. apply Hs. now rewrite Hl. }
    pose proof (final_tidy inp st lc Ha Hs0) as Hti0.
    destruct (final_faithful _ _ _ Ha) as [_ F]. rewrite Forall_forall in F.
    destruct (line_numbers_right inp st lc Ha) as (_ & _ & Elc).
    { intros n Hn. apply In_nth with (d := document_node) in Hn as (k & Hk' & <-).
      assert (0 < S k < length (a_heap st)) as Hk2 by (destruct (a_heap st); cbn in *; lia). pose proof (proj2 (hget_in _ _ Hk2)) as E. cbn in E. rewrite Nat.sub_0_r in E.
      rewrite <- E. now apply Hs0. }
    apply shows_weaken with (fun k x => stands_for blank_text inp k x \/ False /\ x = [] /\ k = S (line_feeds_before inp (length inp))); [tauto|].
    apply (shows (mk h (a_meta st) lc) Hwf Hs Hti blank_text False); cbn [c_input c_meta c_line_count].
    - intros l Hl. left. now apply (F l Hl).
    - intros ix k Hb Hlt. destruct (build_index_ok _ Hwf) as (ix' & E & _ & B1 & B2). assert (ix' = ix) as -> by congruence.
      destruct (final_tiles _ _ _ Ha) as (l & bl & j & L1 & L2 & L3 & L4 & _). rewrite Forall_forall in L3.
      destruct (tiled_lines inp l j (fun s => covers ix (line_feeds_before inp (fst s))) L1 L2) with (k := k) as (b & e & Hbe & [Hbl|Hc]); [|lia| |].
      + intros s Hin. apply (Permutation_in _ L4) in Hin. apply in_app_or in Hin as [Hin|Hin]; [|apply in_app_or in Hin as [Hin|Hin]; [|left; auto]]; right.
        * destruct (in_heap_lines _ _ Hin) as (i & n & Hi & Hn). destruct (num_single _ _ _ _ _ Hs0 Hti0 Hi Hn) as [N1 <-]. split; [assumption|]. apply B1.
          apply (read_covers (mk h (a_meta st) lc) Hwf (a_heap st) (an_d _ _ _ HA) Ht Hk i n s); [|assumption]. cbn [c_heap]. now rewrite (proj1 Ht).
        * apply in_map_iff in Hin as (m & <- & Hin). destruct (proj2 Hti m Hin (proj1 (F m Hin))) as [N1 N2]. split; [assumption|]. unfold num_ok in N2. cbn in N2. rewrite <- N2. now apply B2.
      + right. exists b, e. auto.
      + left. cbn in Hc. destruct Hbe as (_ & _ & _ & _ & _ & <-). assumption.
  Qed.
End Read.
