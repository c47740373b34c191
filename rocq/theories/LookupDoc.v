(** LookupDoc: the facts about parsed documents that lookup depends on. *)
From Verif Require Import Base Types Scan Analyzer TokenStep ScanProofs ScanFacts StepProofs HeapFacts AnalyzerInv
  AnalyzerLoop StepChange SpecText AnalyzerText AnalyzerTiles AnalyzerLines Context SpecTree AnalyzerTree AnalyzerBlocks
  AnalyzerFinal AnalyzerBounds AnalyzerCopies Resolver SpecResolve ResolverIndex ResolverFields ResolverSections ResolverFinal
  ReadLinks ApiDoc Reporter Errors SpecLookup.

(** * Every further line of an instruction is a single line *)

Lemma reach_forall_cont inp (P : node -> Prop) :
  (forall x y, core x = core y -> P x -> P y) ->
  (forall g x, registering g -> P x -> P (g x)) ->
  (forall st t e lf x, a_index st < length inp -> scan (a_index st) (skipn (a_index st) inp) = Some (t, e) -> is_cont inp st e t lf -> P x -> P (cont_upd lf x)) ->
  (forall st t e n p e' l', reach inp st -> scan (a_index st) (skipn (a_index st) inp) = Some (t, e) ->
     created inp st e t n p e' l' -> line_end inp e -> tok_ok inp (a_index st) e t -> P n) ->
  forall st, reach inp st -> Forall P (tl (a_heap st)).
Proof.
  intros P1 P2 P3 P4. induction 1 as [|st st' Hr IH Hlt Hs]; [constructor|].
  destruct (reach_inv _ _ Hr) as [HI _].
  destruct (step_change inp st st' HI ltac:(lia) Hs) as (t & e & Hsc & Hch).
  destruct (scan_ok inp (a_index st) _ _ ltac:(lia) Hsc) as (Hie & Hle & Htok).
  assert (a_heap st <> []) as Hne.
  { pose proof (s_len _ (i_s _ _ _ _ _ HI)). destruct (a_heap st); [cbn in *; lia|discriminate]. }
  destruct Hch as [n p g e' Hcr Hp Hg Hcore Hm Hc Hix Hee|c lf Hic Hlce Hh Hm Hc Hix Hli|op v -> Hh Hm Hc Hix Hli|q -> Hh Hm Hc Hix Hli].
  - eapply Forall_core; [exact P1|apply map_core_tl; symmetry; exact Hcore|].
    apply app_upd_tl_Forall; auto. eapply P4; eauto.
  - rewrite Hh. unfold hupd. destruct c as [|c]; [now rewrite tl_upd0|]. rewrite tl_upd. apply Forall_upd; auto.
    intro x. eapply P3; eauto.
  - now rewrite Hh.
  - now rewrite Hh.
Qed.

Definition rest_single (inp : text) (n : node) : Prop := Forall (fun l => single_line inp (leaf_line l)) (rest n).
Theorem reach_single inp st : reach inp st -> Forall (rest_single inp) (tl (a_heap st)).
Proof.
  apply reach_forall_cont.
  - intros x y Hc. unfold core, dyn in Hc. unfold rest_single, rest. replace (n_conts y) with (n_conts x) by congruence.
    replace (n_lines y) with (n_lines x) by congruence. replace (n_end y) with (n_end x) by congruence. auto.
  - intros g x Hg. destruct (Hg x) as (_ & G2 & G3 & G4 & _). unfold rest_single, rest. now rewrite G2, G3, G4.
  - intros st0 t e lf x Hlt Hsc Hic Hx. pose proof (scan_single inp _ _ _ Hsc) as Hsing.
    destruct (leaf_line_cont _ _ _ _ _ Hic) as [Hll _].
    assert (single_line inp (leaf_line lf)) as Hs by (rewrite Hll; destruct Hic; exact Hsing).
    unfold rest_single, rest in *. rewrite !Forall_app in *. destruct Hx as (X1 & X2 & X3). unfold cont_upd.
    destruct (n_conts x) as [cs|]; [|destruct (itype_eqb (n_type x) EMPTY_ELEMENT)]; cbn; (split; [|now split]);
      rewrite ?Forall_app; auto.
  - intros st0 t e n p e' l' Hr Hsc Hcr Hle Htok. destruct (created_tail _ _ _ _ _ _ _ _ Hcr Hle Htok) as (_ & _ & _ & C4). exact C4.
Qed.

(** * Multiline fields have no gaps *)

Definition ml_rest (n : node) : list leaf := olist (n_lines n) ++ match n_end n with Some l => [l] | None => [] end.
Definition ml_gapless (inp : text) (n : node) : Prop :=
  n_type n = MULTILINE_FIELD_BEGIN ->
  (exists j, tiles inp (S (snd (line_range (n_ranges n)))) (map leaf_line (ml_rest n)) j) /\
  (forall j lf, nth_error (ml_rest n) j = Some lf -> l_line lf = S (n_line n) + j).
Theorem reach_gapless inp st : reach inp st -> Forall (ml_gapless inp) (tl (a_heap st)).
Proof.
  apply reach_forall_cont.
  - intros x y Hc. unfold core, dyn in Hc. assert (stat x = stat y) as Hs by congruence. unfold ml_gapless, ml_rest.
    replace (n_lines y) with (n_lines x) by congruence. replace (n_end y) with (n_end x) by congruence.
    replace (n_type y) with (n_type x) by congruence. now rewrite (stat_ranges _ _ Hs), (stat_line _ _ Hs).
  - intros g x Hg. destruct (Hg x) as (G1 & G2 & G3 & G4 & G5). unfold ml_gapless, ml_rest.
    rewrite G3, G4, (stat_ranges _ _ G1), (stat_line _ _ G1). auto.
  - intros st0 t e lf x _ _ _ Hx. destruct (cont_upd_eq lf x) as (C1 & C2 & C3 & _ & C5). unfold ml_gapless, ml_rest in *.
    rewrite C1, C2, C3. assert (n_line (cont_upd lf x) = n_line x) as -> by (apply stat_line, benign_cont). auto.
  - intros st0 t e n p e' l' Hr Hsc Hcr Hle Htok Hty. destruct (created_tail _ _ _ _ _ _ _ _ Hcr Hle Htok) as (C1 & C2 & _).
    rewrite (created_range _ _ _ _ _ _ _ _ Hcr), (created_line _ _ _ _ _ _ _ _ Hcr). cbn [snd].
    assert (tail_leaves n = ml_rest n) as E.
    { assert (n_conts n = None) as E by (clear - Hcr; destruct Hcr; try destruct v; reflexivity). unfold tail_leaves, ml_rest. now rewrite E. }
    rewrite <- E. split; [exists (S e'); exact C1|exact C2].
Qed.

(** * Ascending lines *)

Lemma ascending_flat {A} (f : A -> list (nat * nat)) l : forall lo hi, ascending lo (flat_map f l) hi ->
  forall x, In x l -> exists a b, lo <= a /\ b <= hi /\ ascending a (f x) b.
Proof.
  induction l as [|y l IH]; intros lo hi H x Hx; [destruct Hx|]. cbn in H; apply ascending_app in H as (mid & H1 & H2).
  destruct Hx as [<-|Hx].
  - exists lo, mid. apply ascending_le in H2. auto.
  - destruct (IH _ _ H2 x Hx) as (a & b & G1 & G2 & G3). exists a, b. apply ascending_le in H1. repeat split; auto. lia.
Qed.
Lemma ascending_flat2 {A} (f : A -> list (nat * nat)) d l : forall lo hi, ascending lo (flat_map f l) hi ->
  forall x y, x < y < length l -> exists a b b' a', ascending a (f (nth x l d)) b /\ b <= b' /\ ascending b' (f (nth y l d)) a'.
Proof.
  induction l as [|z l IH]; intros lo hi H x y Hxy; cbn [length] in Hxy; [lia|]. cbn in H. apply ascending_app in H as (mid & H1 & H2).
  destruct y as [|y]; [lia|]. destruct x as [|x].
  - assert (In (nth y l d) l) as Hin by (apply nth_In; lia). destruct (ascending_flat f l _ _ H2 _ Hin) as (a & b & G1 & G2 & G3).
    exists lo, mid, a, b. auto.
  - apply (IH _ _ H2 x y). lia.
Qed.
Lemma ascending_last a s l b : ascending a (s :: l) b -> a <= fst s /\ fst s <= snd s /\ snd s <= snd (last l s) /\ S (snd (last l s)) <= b.
Proof.
  revert a s. induction l as [|t l IH]; intros a s H; destruct s as [x y]; cbn [fst snd last] in *.
  - cbn in H. lia.
  - destruct H as (H1 & H2 & H3). apply IH in H3. rewrite (last_cons t l (x, y)) || idtac. cbn [fst snd] in *. 
    change (match l with [] => t | _ :: _ => last l (x, y) end) with (last (t :: l) (x, y)). rewrite last_cons. lia.
Qed.

(** * Shape of the instructions *)

Definition lshape (n : node) : Prop :=
  n_conts n <> Some [] /\ n_items n <> Some [] /\ n_entries n <> Some [] /\
  match n_type n with
  | DOCUMENT | SECTION | EMPTY_ELEMENT => plain_node n /\ n_conts n = None
  | FIELD | LIST_ITEM | FIELDSET_ENTRY => plain_node n
  | LIST => n_entries n = None /\ n_lines n = None /\ n_end n = None /\ n_conts n = None
  | FIELDSET => n_items n = None /\ n_lines n = None /\ n_end n = None /\ n_conts n = None
  | MULTILINE_FIELD_BEGIN => n_items n = None /\ n_entries n = None /\ n_conts n = None /\ n_template n = None /\ n_end n <> None
  | _ => False
  end.

(** what lookup knows about the instructions of a document *)
Record LDoc (inp : text) (r : heap) : Prop := {
  ld_s : SInv r;
  ld_elems : forall p, p < length r -> n_elements (hget r p) = ids (elem_of p) r;
  ld_items : forall p, p < length r -> olist (n_items (hget r p)) = ids (item_of p) r;
  ld_entries : forall p, p < length r -> olist (n_entries (hget r p)) = ids (entry_of p) r;
  ld_shape : forall x, x < length r -> lshape (hget r x);
  ld_doc : n_ranges (hget r 0) = [];
  ld_nested : forall x, 0 < x < length r -> nested inp (n_ranges (hget r x)) /\ Forall (fun l => nested inp (l_ranges l)) (rest (hget r x));
  ld_node : forall x, 0 < x < length r -> exists a b, ascending a (line_range (n_ranges (hget r x)) :: map leaf_line (rest (hget r x))) b;
  ld_order : forall x y, 0 < x -> x < y < length r -> finish (hget r x) < begins (hget r y);
  ld_ml : forall x, 0 < x < length r -> ml_gapless inp (hget r x);
  ld_rest : forall x, 0 < x < length r -> rest_single inp (hget r x)
}.

Lemma text_rest x y : text_part x = text_part y -> rest x = rest y /\ n_ranges x = n_ranges y /\ n_line x = n_line y /\ ml_rest x = ml_rest y.
Proof.
  unfold text_part, rest, ml_rest. intro H. replace (n_conts y) with (n_conts x) by congruence. replace (n_lines y) with (n_lines x) by congruence.
  replace (n_end y) with (n_end x) by congruence. repeat split; congruence.
Qed.

Lemma hget_in h x : 0 < x < length h -> In (hget h x) (tl h) /\ hget h x = nth (x - 1) (tl h) document_node.
Proof.
  intro Hx. destruct h as [|d h]; cbn in Hx; [lia|]. destruct x as [|x]; [lia|]. cbn. rewrite Nat.sub_0_r. split; [|reflexivity].
  apply nth_In. lia.
Qed.
Lemma tl_forall (P : node -> Prop) h : Forall P (tl h) -> forall x, 0 < x < length h -> P (hget h x).
Proof. intros H x Hx. rewrite Forall_forall in H. apply H. now apply hget_in. Qed.

Section OfParse.
  Context (inp : text) (st : ast) (lc : nat) (Ha : analyze inp = AOk st lc).
  Let h0 := a_heap st.
  Context (r : heap) (HR : Resolved h0 r).
  Let HA : Analysed h0 (a_cs st) (a_cn st) := analysed _ _ _ Ha.
  Let HT : forall i, text_part (hget r i) = text_part (hget h0 i) := proj2 (rs_text _ _ HR).
  Let HL : length r = length h0 := res_len h0 r HR.

  Lemma shape_ok x : x < length r -> lshape (hget r x).
  Proof.
    intro Hx. rewrite HL in Hx. pose proof (d_type _ (an_d _ _ _ HA) x Hx) as [T1 T].
    destruct (final_reach _ _ _ Ha) as (st0 & Hr & _ & Eh & _).
    assert (n_type (hget h0 x) = MULTILINE_FIELD_BEGIN -> n_end (hget h0 x) <> None) as Hend.
    { intro Hty. destruct (Nat.eq_dec x 0) as [->|Hne].
      - pose proof (s_doc _ (an_s _ _ _ HA)) as Hd. unfold ncls in Hd. rewrite Hty in Hd. discriminate.
      - pose proof (b_heap _ (reach_BInv _ _ Hr)) as B. rewrite <- Eh in B. pose proof (tl_forall _ h0 B x ltac:(fold h0; lia)) as (_ & _ & B3 & _). auto. }
    pose proof (HT x) as HTx. unfold text_part in HTx.
    assert (n_conts (hget r x) = n_conts (hget h0 x)) as E1 by congruence. assert (n_items (hget r x) = n_items (hget h0 x)) as E2 by congruence.
    assert (n_entries (hget r x) = n_entries (hget h0 x)) as E3 by congruence. assert (n_lines (hget r x) = n_lines (hget h0 x)) as E4 by congruence.
    assert (n_end (hget r x) = n_end (hget h0 x)) as E5 by congruence. assert (n_template (hget r x) = n_template (hget h0 x)) as E6 by congruence.
    assert (ncls (hget r x) = ncls (hget h0 x)) as E7 by congruence.
    unfold lshape, plain_node in *. rewrite E1, E2, E3, E4, E5, E6.
    assert (n_items (hget h0 x) <> Some [] /\ n_entries (hget h0 x) <> Some []) as [N1 N2].
    { unfold plain_node in T. destruct (n_type (hget h0 x)); try contradiction; split; intro E; rewrite E in T; cbn in T; intuition congruence. }
    split; [assumption|]. split; [assumption|]. split; [assumption|].
    destruct (nclass_eqb (ncls (hget h0 x)) CElem) eqn:Ec.
    - apply nclass_eqb_eq in Ec. assert (is_element (hget r x)) as He by (apply ncls_elem; congruence).
      destruct (element_cases h0 _ _ HA r HR x He) as [Ke [[Ht Er]|(t & Ht & [m E0 Ex Em Hm Ety Ee|E0 Em Ex Ett Ety|E0 Em Ex Ett Ety])]].
      + rewrite Er. destruct (n_type (hget h0 x)); try contradiction; unfold plain_node in T; intuition auto.
      + rewrite Ee. rewrite E0 in T. unfold plain_node in T. destruct Ety as [Ety|[Ety|[Ety|Ety]]]; rewrite Ety; intuition auto.
      + rewrite <- E0. destruct Ety as [Ety|Ety]; rewrite <- E0 in Ety; rewrite Ety in *; unfold plain_node in T; intuition auto.
      + rewrite <- E0. destruct Ety as [Ety|[Ety|Ety]]; rewrite <- E0 in Ety; rewrite Ety in *; unfold plain_node in T; intuition auto.
    - assert (ncls (hget h0 x) <> CElem) as Hc by (intro E; apply nclass_eqb_eq in E; congruence).
      assert (n_type (hget r x) = n_type (hget h0 x)) as ->.
      { unfold ncls in *. destruct (n_type (hget h0 x)); cbn in *; try contradiction; try congruence; destruct (n_type (hget r x)); cbn in *; congruence. }
      unfold ncls in Hc. destruct (n_type (hget h0 x)); cbn in Hc; try contradiction; try (now exfalso; apply Hc); unfold plain_node in T; intuition auto.
  Qed.

  Lemma ids_res f : (forall i, f (hget r i) = f (hget h0 i)) -> ids f r = ids f h0.
  Proof. intro H. unfold ids. rewrite HL. apply filter_ext. auto. Qed.

  Theorem parse_LDoc : LDoc inp r.
  Proof.
    destruct (final_reach _ _ _ Ha) as (st0 & Hr & _ & Eh & _).
    assert (forall i, ncls (hget r i) = ncls (hget h0 i) /\ n_parent (hget r i) = n_parent (hget h0 i) /\ n_ranges (hget r i) = n_ranges (hget h0 i)) as HE.
    { intro i. pose proof (HT i) as H. unfold text_part in H. repeat split; congruence. }
    assert (forall i, odepth (hget r i) = odepth (hget h0 i)) as HO.
    { intro i. destruct (HE i) as (E1 & _ & E3). unfold odepth. now rewrite E1, E3. }
    assert (forall p i, elem_of p (hget r i) = elem_of p (hget h0 i) /\ item_of p (hget r i) = item_of p (hget h0 i) /\ entry_of p (hget r i) = entry_of p (hget h0 i)) as HI.
    { intros p i. destruct (HE i) as (E1 & E2 & _). unfold elem_of, item_of, entry_of, has_parent, is_cls. now rewrite E1, E2. }
    pose proof (an_s _ _ _ HA) as S. pose proof (an_d _ _ _ HA) as D.
    destruct (final_faithful _ _ _ Ha) as [F _]. destruct (final_tiles _ _ _ Ha) as (l & bl & j & _ & _ & _ & _ & O & _).
    pose proof (reach_gapless _ _ Hr) as G. pose proof (reach_single _ _ Hr) as R. rewrite <- Eh in G, R.
    assert (forall n, exists pre, node_lines n = pre ++ line_range (n_ranges n) :: map leaf_line (rest n)) as HNL.
    { intro n. eexists. unfold node_lines, rest. reflexivity. }
    constructor.
    - constructor.
      + rewrite HL. apply (s_len _ S).
      + rewrite (proj1 (HE 0)). apply (s_doc _ S).
      + rewrite (proj1 (proj2 (HE 0))). apply (s_docp _ S).
      + intros i Hi. rewrite HL in Hi. destruct (s_node _ S i Hi) as (p & P1 & P2 & P3). exists p. rewrite (proj1 (proj2 (HE i))).
        split; [assumption|]. split; [assumption|]. unfold placed, sec_like in *. rewrite (proj1 (HE i)), (proj1 (HE p)), !HO.
        destruct (ncls (hget h0 i)); try contradiction; destruct P3 as [Q1 Q2].
        * destruct Q2 as [Q2 Q3]. split; [assumption|]. split; [assumption|]. intros k Hk. rewrite (proj1 (HE k)), HO. now apply Q3.
        * split; [assumption|]. intros k Hk. rewrite (proj1 (HE k)). now apply Q2.
        * split; [assumption|]. intros k Hk. rewrite (proj1 (HE k)), (proj1 (proj2 (HE k))). now apply Q2.
        * split; [assumption|]. intros k Hk. rewrite (proj1 (HE k)), (proj1 (proj2 (HE k))). now apply Q2.
    - intros p Hp. rewrite HL in Hp. rewrite (ids_res (elem_of p)) by (intro i; apply (HI p i)).
      rewrite <- (d_elems _ D p Hp). pose proof (HT p) as H. unfold text_part in H. congruence.
    - intros p Hp. rewrite HL in Hp. rewrite (ids_res (item_of p)) by (intro i; apply (HI p i)).
      rewrite <- (d_items _ D p Hp). pose proof (HT p) as H. unfold text_part in H. f_equal. congruence.
    - intros p Hp. rewrite HL in Hp. rewrite (ids_res (entry_of p)) by (intro i; apply (HI p i)).
      rewrite <- (d_entries _ D p Hp). pose proof (HT p) as H. unfold text_part in H. f_equal. congruence.
    - apply shape_ok.
    - rewrite (proj2 (proj2 (HE 0))). unfold h0. rewrite Eh. now rewrite (stat_ranges _ _ (reach_document _ _ Hr)).
    - intros x Hx. rewrite HL in Hx. destruct (text_rest _ _ (HT x)) as (E1 & E2 & _). rewrite E1, E2.
      pose proof (tl_forall _ h0 F x Hx) as (N1 & _ & _ & _ & _ & N2). split; [assumption|].
      unfold hanging in N2. apply Forall_app in N2 as [_ N2]. eapply Forall_impl; [|exact N2]. intros lf [H _]. exact H.
    - intros x Hx. rewrite HL in Hx. destruct (text_rest _ _ (HT x)) as (E1 & E2 & _). rewrite E1, E2.
      destruct (ascending_flat _ _ _ _ O _ (proj1 (hget_in _ x Hx))) as (a & b & _ & _ & H).
      destruct (HNL (hget h0 x)) as [pre E]. rewrite E in H. apply ascending_app in H as (m & _ & H). eauto.
    - intros x y Hx Hxy. rewrite HL in Hxy. unfold finish, begins.
      destruct (text_rest _ _ (HT x)) as (E1 & E2 & _). destruct (text_rest _ _ (HT y)) as (_ & E2' & _). rewrite E1, E2, E2'.
      rewrite (proj2 (hget_in h0 x ltac:(lia))), (proj2 (hget_in h0 y ltac:(lia))).
      assert (length (tl h0) = length h0 - 1) as Hlen by (generalize h0; intros [|? ?]; cbn; lia).
      destruct (ascending_flat2 node_lines document_node (tl h0) _ _ O (x - 1) (y - 1) ltac:(lia)) as (a & b & b' & a' & A1 & A2 & A3).
      destruct (HNL (nth (x - 1) (tl h0) document_node)) as [pre E]. rewrite E in A1. apply ascending_app in A1 as (m & _ & A1).
      destruct (HNL (nth (y - 1) (tl h0) document_node)) as [pre' E']. rewrite E' in A3. apply ascending_app in A3 as (m' & A0 & A3).
      apply ascending_last in A1. apply ascending_last in A3. apply ascending_le in A0. lia.
    - intros x Hx. rewrite HL in Hx. pose proof (tl_forall _ h0 G x Hx) as H. unfold ml_gapless in *.
      destruct (text_rest _ _ (HT x)) as (_ & E2 & E3 & E4). rewrite E2, E3, E4. intro Hty. apply H.
      assert (is_element (hget r x)) as He by (unfold is_element; now rewrite Hty).
      destruct (element_cases h0 _ _ HA r HR x He) as [Ke [[Ht Er]|(t & Ht & [m E0 Ex Em Hm Ety Ee|E0 Em Ex Ett Ety|E0 Em Ex Ett Ety])]].
      + congruence.
      + exfalso. rewrite Hty in Ee. destruct Ety as [Ety|[Ety|[Ety|Ety]]]; rewrite Ety in Ee; discriminate.
      + congruence.
      + congruence.
    - intros x Hx. rewrite HL in Hx. pose proof (tl_forall _ h0 R x Hx) as H. unfold rest_single in *.
      destruct (text_rest _ _ (HT x)) as (E1 & _). now rewrite E1.
  Qed.
End OfParse.
