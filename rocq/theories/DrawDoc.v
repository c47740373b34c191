(** DrawDoc: reports about documents, drawn by each reporter. *)
From Coq Require Import Permutation.
From Verif Require Import Base Regex Grammar Types Messages Scan Analyzer TokenStep ScanProofs ScanFacts StepProofs HeapFacts AnalyzerInv AnalyzerLoop StepChange SpecText AnalyzerText AnalyzerTiles
  AnalyzerLines AnalyzerFinal AnalyzerBounds SpecTree AnalyzerTree Resolver SpecResolve ResolverIndex ResolverFields ResolverSections ResolverFinal ResolverComments NumberOrder
  Reporter Errors Context Faults SpecLookup LookupDoc SpecSelect ReporterFacts ReporterTags ParseErrors ParseContext ParseOutcome SelectProofs SessionInv PropLookupProofs PrintDoc SpecPrint PrintProofs
  SpecReport ReportProofs SpecSnippet SnippetRows SnippetCover LocaleFree ReporterFree SpecDraw DrawProofs.

(** * Line numbers are distinct *)

Lemma final_nums inp st lc : analyze inp = AOk st lc -> ordered (heap_nums (a_heap st) ++ map leaf_num (a_meta st)).
Proof.
  intro Ha. destruct (final_reach _ _ _ Ha) as (st0 & Hr & _ & -> & -> & _). destruct (reach_nums _ _ Hr) as [H _]. unfold all_nums in H. now rewrite flush_eq, map_app.
Qed.

Lemma NoDup_app_remove_r {A} (l1 l2 : list A) : NoDup (l1 ++ l2) -> NoDup l1.
Proof. induction l1 as [|z l1 IH]; intro H; [constructor|]. cbn in H. inversion_clear H as [|? ? N1 N2]. constructor; [|auto]. intro H. apply N1, in_or_app. now left. Qed.
Lemma flat_unique {A B} (g : A -> list B) d : forall l, NoDup (flat_map g l) -> forall a, a < length l -> NoDup (g (nth a l d)) /\
  forall b x, b < length l -> In x (g (nth a l d)) -> In x (g (nth b l d)) -> a = b.
Proof.
  induction l as [|y l IH]; intros Hn a Ha; cbn [length] in Ha; [lia|]. cbn [flat_map] in Hn.
  assert (forall l1 l2 : list B, NoDup (l1 ++ l2) -> NoDup l1 /\ NoDup l2 /\ forall x, In x l1 -> In x l2 -> False) as K.
  { clear. induction l1 as [|z l1 IH]; intros l2 H; [split; [constructor|]; split; [assumption|intros x []]|]. cbn in H. inversion_clear H as [|? ? N1 N2].
    destruct (IH _ N2) as (I1 & I2 & I3). split; [constructor; [|assumption]; intro H; apply N1; apply in_or_app; now left|]. split; [assumption|].
    intros x [->|Hx] H2; [apply N1; apply in_or_app; now right|exact (I3 x Hx H2)]. }
  destruct (K _ _ Hn) as (K1 & K2 & K3).
  assert (forall b x, b < length l -> In x (g (nth b l d)) -> In x (flat_map g l)) as Kin.
  { intros b x Hb Hx. apply in_flat_map. exists (nth b l d). split; [now apply nth_In|assumption]. }
  destruct a as [|a]; cbn [nth].
  - split; [assumption|]. intros [|b] x Hb H1 H2; [reflexivity|]. exfalso. cbn [length] in Hb. exact (K3 x H1 (Kin b x ltac:(lia) H2)).
  - destruct (IH K2 a ltac:(lia)) as [I1 I2]. split; [assumption|]. intros [|b] x Hb H1 H2; cbn [length nth] in *.
    + exfalso. exact (K3 x H2 (Kin a x ltac:(lia) H1)).
    + f_equal. apply (I2 b x); [lia|assumption|assumption].
Qed.
Lemma nums_flat h : map fst (heap_nums h) = flat_map (fun n => map fst (node_nums n)) (tl h).
Proof. unfold heap_nums. induction (tl h) as [|n l IH]; [reflexivity|]. cbn [flat_map]. now rewrite map_app, IH. Qed.

Section Unique.
  Context (h0 h : heap) (meta : list leaf) (Hn : NoDup (map fst (heap_nums h0 ++ map leaf_num meta))) (Ht : same_text h0 h) (Hc : comments_from h0 h)
    (H0 : forall k, k = 0 \/ length h0 <= k -> n_comments (hget h0 k) = None).

  Lemma own_number i : In (n_line (hget h0 i)) (map fst (node_nums (hget h0 i))).
  Proof. rewrite node_nums_hanging, map_app. apply in_or_app. right. now left. Qed.
  Lemma one_node i k : 0 < i < length h0 -> 0 < k < length h0 -> In (n_line (hget h0 i)) (map fst (node_nums (hget h0 k))) -> i = k.
  Proof.
    intros Hi Hk H. rewrite map_app in Hn. apply NoDup_app_remove_r in Hn. rewrite nums_flat in Hn.
    pose proof (flat_unique _ document_node _ Hn (i - 1)) as K. assert (length (tl h0) = length h0 - 1) as El by (destruct h0; cbn; lia).
    destruct (K ltac:(lia)) as [_ K2]. specialize (K2 (k - 1) (n_line (hget h0 i)) ltac:(lia)). rewrite <- (proj2 (hget_in h0 i Hi)), <- (proj2 (hget_in h0 k Hk)) in K2.
    specialize (K2 (own_number i) H). lia.
  Qed.
  Lemma not_leaf i l : 0 < i < length h0 -> In l (olist (n_comments (hget h0 i)) ++ rest (hget h0 i)) -> l_line l <> n_line (hget h0 i).
  Proof.
    intros Hi Hl E. rewrite map_app in Hn. apply NoDup_app_remove_r in Hn. rewrite nums_flat in Hn. assert (length (tl h0) = length h0 - 1) as El by (destruct h0; cbn; lia).
    destruct (flat_unique _ document_node _ Hn (i - 1) ltac:(lia)) as [K _]. rewrite <- (proj2 (hget_in h0 i Hi)), node_nums_hanging in K.
    rewrite map_app in K. cbn [map fst] in K. apply NoDup_remove_2 in K. apply K. rewrite <- E, <- map_app, <- map_app. rewrite map_map. change (l_line l) with (fst (leaf_num l)).
    now apply (in_map (fun x => fst (leaf_num x))).
  Qed.
  Lemma not_meta i l : 0 < i < length h0 -> In l meta -> l_line l <> n_line (hget h0 i).
  Proof.
    intros Hi Hl E. rewrite map_app in Hn. assert (In (n_line (hget h0 i)) (map fst (heap_nums h0))) as H1.
    { rewrite nums_flat. apply in_flat_map. exists (hget h0 i). split; [apply (hget_in h0 i Hi)|apply own_number]. }
    assert (In (n_line (hget h0 i)) (map fst (map leaf_num meta))) as H2.
    { rewrite <- E. rewrite map_map. now apply (in_map (fun x => fst (leaf_num x))). }
    revert Hn H1 H2. generalize (n_line (hget h0 i)) (map fst (heap_nums h0)) (map fst (map leaf_num meta)). clear. intros x l1 l2 Hn H1 H2.
    apply in_split in H1 as (a & b & ->). rewrite <- app_assoc in Hn. cbn in Hn. apply NoDup_remove_2 in Hn. apply Hn. apply in_or_app. right. apply in_or_app. now right.
  Qed.
  Lemma source_unique inp loc rk src lc e ri : 0 < e < length h -> source_of (MkCtx inp loc rk src h meta lc) (n_line (hget h e)) ri -> ri = node_info (hget h e).
  Proof.
    intros He. destruct Ht as [Hl Htx]. rewrite Hl in He. destruct (text_rest _ _ (Htx e)) as (_ & _ & Ee & _). unfold source_of. cbn [c_heap c_meta]. rewrite Ee. rewrite Hl.
    intros [(i & Hi & E & ->)|[(i & l & Hi & Hil & E & ->)|(l & Hil & E & ->)]].
    - destruct (text_rest _ _ (Htx i)) as (_ & _ & Ei & _). assert (e = i) as ->; [|reflexivity]. apply (one_node e i He Hi). rewrite <- E, Ei. apply own_number.
    - exfalso. rewrite hanging_rest in Hil. destruct (text_rest _ _ (Htx i)) as (Er & _). rewrite Er in Hil.
      assert (exists k, 0 < k < length h0 /\ In l (olist (n_comments (hget h0 k)) ++ rest (hget h0 k))) as (k & Hk & Hin).
      { apply in_app_or in Hil as [Hil|Hil]; [|exists i; split; [assumption|apply in_or_app; now right]]. destruct (Hc i) as [k Ek]. rewrite Ek in Hil. exists k.
        assert (0 < k < length h0) as Hk; [|split; [assumption|apply in_or_app; now left]]. destruct (Nat.eq_dec k 0) as [->|]; [rewrite (H0 0) in Hil by auto; destruct Hil|].
        destruct (le_lt_dec (length h0) k); [rewrite (H0 k) in Hil by auto; destruct Hil|lia]. }
      assert (In (l_line l) (map fst (node_nums (hget h0 k)))) as Hn2.
      { rewrite node_nums_hanging, map_app. cbn [map]. rewrite !map_map. apply in_or_app. apply in_app_or in Hin as [Hin|Hin]; [left|right; right]; now apply (in_map (fun x => fst (leaf_num x)) _ l). }
      rewrite E in Hn2. pose proof (one_node e k He Hk Hn2) as ->. exact (not_leaf k l Hk Hin E).
    - exfalso. exact (not_meta e l He Hil E).
  Qed.
End Unique.

(** * Complaints *)

Lemma parse_retag inp loc rk rk' src c : parse_context inp loc rk src = Ok c -> parse_context inp loc rk' src = Ok (retag rk' c).
Proof. intro H. apply parse_ok in H as (st & lc & h & Ha & Hr & ->). apply parse_ok. exists st, lc, h. auto. Qed.

Lemma sort_keeps l y : In y l -> In y (sort_desc l).
Proof.
  unfold sort_desc. assert (forall l acc, In y acc \/ In y l -> In y (fold_left (fun acc x => insert_desc x acc) l acc)) as K.
  { clear. induction l as [|x l IH]; intros acc H; cbn [fold_left]; [destruct H as [H|[]]; assumption|]. apply IH. destruct H as [H|[->|H]]; [left; apply SnippetRows.insert_in; now right|left; apply SnippetRows.insert_in; now left|now right]. }
  intro H. apply K. now right.
Qed.
Lemma rget_in rs n : rget rs n <> None -> exists s, In (n, s) rs.
Proof.
  induction rs as [|[m s] rs IH]; cbn [rget]; [congruence|]. destruct (rname_eqb m n) eqn:E; [|intro H; destruct (IH H) as [s' Hs]; exists s'; now right].
  intros _. exists s. left. f_equal. destruct m, n; (reflexivity || discriminate).
Qed.

Section Parsed.
  Context {inp : text} {loc : locale} {rk : reporter_kind} {src : option text} {c : ctx} (HP : parse_context inp loc rk src = Ok c).
  Local Notation h := (c_heap c).
  Let Hwf : WF c := wf_parse inp loc rk src c HP.
  Let PD : PDoc h (c_meta c) := pdoc_parse HP.

  Lemma parsed_input : c_input c = inp /\ c_locale c = loc /\ c_source c = src.
  Proof. pose proof HP as H. apply parse_ok in H as (st & lc & h & Ha & Hr & ->). auto. Qed.
  Lemma indexed_node ix e : build_index c = Ok ix -> 0 < e < length h -> nth_error ix (n_line (hget h e)) = Some (Some (node_info (hget h e))).
  Proof.
    intros Hb He. pose proof HP as HP'. apply parse_ok in HP' as (st & lc & r & Ha & Hr & Ec). pose proof Hwf as Hwf'. subst c. cbn [c_heap] in *.
    pose proof (resolve_spec _ _ _ (analysed _ _ _ Ha)) as Hsp. rewrite Hr in Hsp. pose proof (rs_text _ _ Hsp) as Htx.
    pose proof (resolve_parts (a_heap st) (a_cs st) (a_cn st)) as Hp. rewrite Hr in Hp. pose proof (resolve_comments (a_heap st) (a_cs st) (a_cn st)) as Hcm. rewrite Hr in Hcm.
    destruct (build_index_ok _ Hwf') as (ix' & E & [_ Hix] & B1 & _). assert (ix' = ix) as -> by congruence.
    assert (below_covers (MkCtx inp loc rk src r (a_meta st) lc) 0 (n_line (hget r e))) as Hcov.
    { destruct Htx as [Hl Htx']. destruct (text_rest _ _ (Htx' e)) as (_ & Er & El & _).
      apply (read_covers (MkCtx inp loc rk src r (a_meta st) lc) Hwf' (a_heap st) (an_d _ _ _ (analysed _ _ _ Ha)) (conj Hl Htx') Hp e (n_line (hget r e)) (line_range (n_ranges (hget r e)))).
      - exact He.
      - rewrite node_nums_hanging, El, Er. apply in_or_app. right. now left. }
    destruct (B1 _ Hcov) as [ri Hri]. rewrite Hri. do 2 f_equal.
    exact (source_unique (a_heap st) r (a_meta st) (or_nodup _ (final_nums _ _ _ Ha)) Htx Hcm (analysed_comments _ _ _ Ha) inp loc rk src lc e ri He (Hix _ _ Hri)).
  Qed.
  Lemma parsed_drawables r : r_ctx r = c -> build_index c = Ok (r_index r) -> drawables r.
  Proof.
    intros Hr Hb j ri Hi. rewrite Hr. destruct (build_index_ok _ Hwf) as (ix & E & [_ Hix] & _). assert (ix = r_index r) as -> by congruence.
    unfold info_at in Hi. destruct (nth_error (r_index r) j) as [[x|]|] eqn:En; try discriminate. injection Hi as ->. left.
    destruct (Hix j ri En) as [(i & Hi & _ & ->)|[(i & l & Hi & Hl & _ & ->)|(l & Hl & _ & ->)]].
    - apply (wf_text _ Hwf i Hi).
    - destruct (wf_text _ Hwf i Hi) as (_ & _ & _ & _ & _ & N1). rewrite Forall_forall in N1. now apply N1.
    - clear - HP Hl. pose proof HP as H. apply parse_ok in H as (st & lc & r & Ha & Hr & ->). cbn in *. destruct (final_faithful _ _ _ Ha) as [_ F]. rewrite Forall_forall in F. apply (F l Hl).
  Qed.
  (** lines of deep copies, and no others, cannot be drawn in the terminal *)
  Lemma parsed_terminal r j : r_ctx r = c -> build_index c = Ok (r_index r) ->
    ((exists x, terminal_content r j = Ok x) <-> forall e, copies_deeply h e -> n_line (hget h e) <> j).
  Proof.
    intros Hr Hb. destruct (build_index_ok _ Hwf) as (ix & E & [_ Hix] & _). assert (ix = r_index r) as -> by congruence. split.
    - intros [x Hx] e [He Hd] Ej. pose proof (indexed_node _ e Hb He) as Hn. rewrite Ej in Hn. unfold terminal_content, info_at in Hx. rewrite Hn in Hx. cbn [ri_type node_info ri_ranges] in Hx.
      apply bind_ok in Hx as (t & _ & Hx). 
      assert (itype_eqb (n_type (hget h e)) COMMENT || itype_eqb (n_type (hget h e)) UNPARSED = false) as Ety.
      { destruct (kind HP e He) as [_ (_ & _ & _ & Hk)]. destruct (n_type (hget h e)); try reflexivity; contradiction. }
      rewrite Ety in Hx. apply rget_in in Hd as [s Hs].
      assert (In (R_deep_copy_operator, s) (sort_desc (filter (fun x => negb (rname_eqb (fst x) R_line)) (n_ranges (hget h e))))) as Hin.
      { apply sort_keeps. apply filter_In. split; [assumption|reflexivity]. }
      revert Hx Hin. generalize (sort_desc (filter (fun x => negb (rname_eqb (fst x) R_line)) (n_ranges (hget h e)))). intro l. revert t. clear.
      induction l as [|[nm [b e']] l IH]; intros t Hx Hin; [destruct Hin|]. cbn [foldM] in Hx. destruct Hin as [[= -> _]|Hin]; [discriminate|].
      destruct (range_style nm); [|discriminate]. cbn [bind] in Hx. exact (IH _ Hx Hin).
    - intro H. unfold terminal_content. destruct (info_at r j) as [ri|] eqn:Ei; [|eexists; reflexivity]. unfold info_at in Ei. destruct (nth_error (r_index r) j) as [[y|]|] eqn:En; try discriminate. injection Ei as ->.
      pose proof (Hix j ri En) as Hs.
      assert (exists ty, ri_type ri = Some ty /\ (ty = COMMENT \/ styled (ri_ranges ri))) as (ty & -> & Hst).
      { destruct Hs as [(i & Hi & Ej & ->)|[(i & l & Hi & Hl & _ & ->)|(l & Hl & _ & ->)]].
        - exists (n_type (hget h i)). split; [reflexivity|]. right. cbn. destruct (pd_styles _ _ PD i Hi) as [K _]. intros nm s Hin. destruct (K nm s Hin) as [->|[G| ->]]; auto.
          exfalso. apply (H i); [|exact Ej]. split; [exact Hi|]. clear - Hin. induction (n_ranges (hget h i)) as [|[m s'] rs IH]; [destruct Hin|]. cbn [rget].
          destruct (rname_eqb m R_deep_copy_operator) eqn:E; [discriminate|]. destruct Hin as [[= -> ->]|Hin]; [discriminate|auto].
        - destruct (pd_styles _ _ PD i Hi) as [_ K]. rewrite Forall_forall in K. destruct (K l Hl) as [K1 K2]. cbn. destruct (l_type l) as [ty|]; [|congruence]. exists ty. split; [reflexivity|].
          destruct K2 as [[= ->]|K2]; auto.
        - pose proof (pd_meta _ _ PD) as K. unfold comments_typed in K. rewrite Forall_forall in K. exists COMMENT. split; [exact (K l Hl)|now left]. }
      assert (exists t, line_content (r_ctx r) ri = Ok t) as [t ->].
      { unfold line_content. destruct Hs as [(i & Hi & _ & ->)|[(i & l & Hi & Hl & _ & ->)|(l & Hl & _ & ->)]]; cbn [node_info leaf_info ri_ranges].
        - destruct (wf_node _ Hwf i Hi) as (_ & N & _). destruct (rget _ R_line) as [[? ?]|]; [eauto|congruence].
        - destruct (wf_node _ Hwf i Hi) as (_ & _ & N). rewrite Forall_forall in N. destruct (N l Hl) as [_ N1]. destruct (rget _ R_line) as [[? ?]|]; [eauto|congruence].
        - pose proof (wf_meta _ Hwf) as N. rewrite Forall_forall in N. destruct (N l Hl) as [_ N1]. destruct (rget _ R_line) as [[? ?]|]; [eauto|congruence]. }
      cbn [bind]. destruct (itype_eqb ty COMMENT || itype_eqb ty UNPARSED) eqn:Et; [eexists; reflexivity|]. destruct Hst as [->|Hst]; [discriminate|].
      rewrite Hr. apply (styled_fold (c := c)). intros nm s Hin. apply sort_in, filter_In in Hin as [Hin Hnm]. cbn in Hnm. destruct (Hst nm s Hin) as [->|G]; [discriminate|assumption].
  Qed.

  Theorem complaint_drawn v x : validation_error (retag TextReporter c) v = Ok x -> exists ws, text_report loc src ws (er_snippet x) /\
    (exists y, validation_error (retag HtmlReporter c) v = Ok y /\ er_text y = er_text x /\ er_selection y = er_selection x /\ html_report loc src ws (er_snippet y)) /\
    ((forall e, copies_deeply h e -> ~ shows_line (n_line (hget h e) + 1) ws) ->
      exists z, validation_error (retag TerminalReporter c) v = Ok z /\ er_text z = er_text x /\ er_selection z = er_selection x /\ terminal_report src ws (er_snippet z)) /\
    ((exists e, copies_deeply h e /\ shows_line (n_line (hget h e) + 1) ws) -> validation_error (retag TerminalReporter c) v = Raise KeyError).
  Proof.
    intro Hx. destruct parsed_input as (_ & El & Es).
    destruct (drawn_alike c _ (validation_form c v)) as [(r & ws & x' & y & Hr & Hb & Hw & Ex & Ey & [L1 L2] & T & H & Hz)|(e & Ex & _)]; [|cbn beta in Ex; congruence].
    cbn beta in *. assert (x' = x) as -> by congruence. rewrite El, Es in *. exists ws. split; [assumption|]. split; [exists y; auto|].
    destruct (terminal_fails r ws Hw) as [F1 F2]. pose proof (parsed_drawables r Hr Hb) as Hd. split.
    - intro Hn. destruct F1 as [_ F1]. destruct F1 as [s Hs].
      + intros j Hj. apply (parsed_terminal r j Hr Hb). intros e He <-. exact (Hn e He Hj).
      + rewrite Hs in Hz. destruct Hz as (z & Ez & [Z1 Z2] & Z3). exists z. split; [assumption|]. split; [assumption|]. split; [assumption|].
        destruct (terminal_draws r s Hd Hs) as (ws' & Hw' & Ht). assert (ws' = ws) as -> by congruence. now rewrite Z3, <- Es, <- Hr.
    - intros (e & He & Hj). destruct F2 as [F2|F2]; [|now rewrite F2 in Hz]. exfalso. destruct F1 as [F1 _]. destruct (F1 F2 _ Hj) as [t Ht].
      pose proof (proj1 (parsed_terminal r _ Hr Hb) (ex_intro _ t Ht) e He) as K. congruence.
  Qed.
  (** no error in text is none in HTML, for the same reason *)
  Theorem complaint_fails v e : validation_error (retag TextReporter c) v = Raise e <-> validation_error (retag HtmlReporter c) v = Raise e.
  Proof.
    destruct (drawn_alike c _ (validation_form c v)) as [(r & ws & x & y & _ & _ & _ & Ex & Ey & _)|(e' & Ex & Ey & _)]; cbn beta in *; rewrite Ex, Ey; [split; discriminate|split; auto].
  Qed.
End Parsed.

(** * Parse errors *)

Section Faults.
  Context (inp : text) (loc : locale) (src : option text).

  Lemma meta_drawable p h meta lc : fault inp p h meta lc -> forall l, In l meta -> drawable inp (l_ranges l).
  Proof.
    intros Hf l Hl. destruct Hf as [e st lc Ha|e st lc h Ha Hr].
    - destruct (analyze_stopped _ _ _ _ Ha) as (st0 & Hr & Hix & Hst). destruct (reach_text _ _ Hr) as [_ _ T3 _]. rewrite Forall_forall in T3.
      assert (forall i ls fuel a b f lc, tokenize_error inp fuel a b f = Some (i :: ls, lc) -> In l (i :: ls) -> drawable inp (l_ranges l)) as K.
      { intros i ls fuel a b f lc' Ht Hin. apply tokenize_spec in Ht as (_ & K2 & _). rewrite Forall_forall in K2. destruct (K2 l Hin) as (s & Es & _). right. exists s. exact Es. }
      destruct Hst as [i ls H1 H2 H3 H4|op k j i ls H1 H2 H3 H4 H5 H6].
      + rewrite H3 in Hl. apply in_app_or in Hl as [Hl|Hl]; [left; apply (T3 l Hl)|exact (K _ _ _ _ _ _ _ H1 Hl)].
      + rewrite H5 in Hl. apply in_app_or in Hl as [Hl|Hl]; [left; apply (T3 l Hl)|exact (K _ _ _ _ _ _ _ H3 Hl)].
    - left. destruct (final_faithful _ _ _ Ha) as [_ F]. rewrite Forall_forall in F. apply (F l Hl).
  Qed.
  Lemma fault_drawables p h meta lc rk r : fault inp p h meta lc -> r_ctx r = MkCtx inp loc rk src h meta lc -> build_index (MkCtx inp loc rk src h meta lc) = Ok (r_index r) -> drawables r.
  Proof.
    intros Hf Hr Hb j ri Hi. rewrite Hr. pose proof (wf_fault inp loc rk src _ _ _ _ Hf) as Hwf. destruct (build_index_ok _ Hwf) as (ix & E & [_ Hix] & _). assert (ix = r_index r) as -> by congruence.
    unfold info_at in Hi. destruct (nth_error (r_index r) j) as [[x|]|] eqn:En; try discriminate. injection Hi as ->.
    destruct (Hix j ri En) as [(i & Hi & _ & ->)|[(i & l & Hi & Hl & _ & ->)|(l & Hl & _ & ->)]].
    - left. apply (wf_text _ Hwf i Hi).
    - left. destruct (wf_text _ Hwf i Hi) as (_ & _ & _ & _ & _ & N1). rewrite Forall_forall in N1. now apply N1.
    - exact (meta_drawable _ _ _ _ Hf l Hl).
  Qed.

  Theorem parse_drawn x : parse_context inp loc TextReporter src = Raise (ParseError x) -> exists ws, text_report loc src ws (er_snippet x) /\
    (exists y, parse_context inp loc HtmlReporter src = Raise (ParseError y) /\ er_text y = er_text x /\ er_selection y = er_selection x /\ html_report loc src ws (er_snippet y)) /\
    ((exists z, parse_context inp loc TerminalReporter src = Raise (ParseError z) /\ er_text z = er_text x /\ er_selection z = er_selection x /\ terminal_report src ws (er_snippet z)) \/
     parse_context inp loc TerminalReporter src = Raise KeyError).
  Proof.
    intro H. apply parse_raise in H as [(p & h & meta & lc & Hf & He)|[H _]]; [|discriminate].
    destruct (parse_error (MkCtx inp loc TextReporter src h meta lc) p) as [x0|e0] eqn:E; [injection He as <-|].
    2:{ exfalso. subst e0. destruct (fault_prints inp loc TextReporter src _ _ _ _ Hf) as [(st & e' & prev & _ & _ & _ & _ & _ & _ & H3)|[[z Hz]|[_ Hz]]]; congruence. }
    set (c := MkCtx inp loc TextReporter src h meta lc) in *.
    destruct (drawn_alike c _ (parse_form c p)) as [(r & ws & x' & y & Hr & Hb & Hw & Ex & Ey & [L1 L2] & T & H & Hz)|(e & Ex & _)]; [|cbn beta in Ex; change (retag TextReporter c) with c in Ex; congruence].
    cbn beta in *. change (retag TextReporter c) with c in Ex. assert (x' = x) as -> by congruence. exists ws. split; [assumption|].
    assert (forall rk, (exists w, parse_error (retag rk c) p = Ok w /\ parse_context inp loc rk src = Raise (ParseError w)) \/ (exists e, parse_error (retag rk c) p = Raise e /\ parse_context inp loc rk src = Raise e)) as K.
    { intro rk. destruct (parse_error (retag rk c) p) as [w|e] eqn:Ew; [left; exists w|right; exists e]; (split; [reflexivity|]); apply parse_raise; left; exists p, h, meta, lc; (split; [assumption|]);
        change (MkCtx inp loc rk src h meta lc) with (retag rk c); now rewrite Ew. }
    split.
    - destruct (K HtmlReporter) as [(w & W1 & W2)|(e & W1 & W2)]; [|congruence]. assert (w = y) as -> by congruence. exists y. auto.
    - pose proof (fault_drawables p h meta lc TextReporter r Hf Hr Hb) as Hd. destruct (terminal_fails r ws Hw) as [_ [[s Hs]|Hs]]; rewrite Hs in Hz.
      + left. destruct Hz as (z & Ez & [Z1 Z2] & Z3). destruct (K TerminalReporter) as [(w & W1 & W2)|(e & W1 & W2)]; [|congruence]. assert (w = z) as -> by congruence.
        exists z. split; [assumption|]. split; [assumption|]. split; [assumption|]. destruct (terminal_draws r s Hd Hs) as (ws' & Hw' & Ht). assert (ws' = ws) as -> by congruence.
        rewrite Z3. rewrite Hr in Ht. exact Ht.
      + right. destruct (K TerminalReporter) as [(w & W1 & W2)|(e & W1 & W2)]; congruence.
  Qed.
End Faults.

(** * The statements *)

Theorem same_complaints inp loc src ct ch cm : parse_context inp loc TextReporter src = Ok ct -> parse_context inp loc HtmlReporter src = Ok ch ->
  parse_context inp loc TerminalReporter src = Ok cm -> forall v x, validation_error ct v = Ok x -> exists rows, text_report loc src rows (er_snippet x) /\
  (exists y, validation_error ch v = Ok y /\ er_text y = er_text x /\ er_selection y = er_selection x /\ html_report loc src rows (er_snippet y)) /\
  ((forall e, copies_deeply (c_heap cm) e -> ~ shows_line (n_line (hget (c_heap cm) e) + 1) rows) ->
    exists z, validation_error cm v = Ok z /\ er_text z = er_text x /\ er_selection z = er_selection x /\ terminal_report src rows (er_snippet z)) /\
  ((exists e, copies_deeply (c_heap cm) e /\ shows_line (n_line (hget (c_heap cm) e) + 1) rows) -> validation_error cm v = Raise KeyError).
Proof.
  intros H1 H2 H3 v x Hx. pose proof (parse_retag _ _ _ HtmlReporter _ _ H1) as E2. pose proof (parse_retag _ _ _ TerminalReporter _ _ H1) as E3. rewrite H2 in E2. rewrite H3 in E3.
  injection E2 as ->. injection E3 as ->. cbn [retag c_heap]. apply (complaint_drawn H1 v x). replace (retag TextReporter ct) with ct; [assumption|].
  apply parse_ok in H1 as (st & lc & h & _ & _ & ->). reflexivity.
Qed.
Theorem same_failures inp loc src ct ch cm : parse_context inp loc TextReporter src = Ok ct -> parse_context inp loc HtmlReporter src = Ok ch ->
  parse_context inp loc TerminalReporter src = Ok cm -> forall v,
  (forall e, validation_error ct v = Raise e <-> validation_error ch v = Raise e) /\ (forall e, validation_error ct v = Raise e -> exists e', validation_error cm v = Raise e').
Proof.
  intros H1 H2 H3 v. pose proof (parse_retag _ _ _ HtmlReporter _ _ H1) as E2. pose proof (parse_retag _ _ _ TerminalReporter _ _ H1) as E3. rewrite H2 in E2. rewrite H3 in E3.
  injection E2 as ->. injection E3 as ->. assert (retag TextReporter ct = ct) as E by (apply parse_ok in H1 as (st & lc & h & _ & _ & ->); reflexivity).
  split; [intro e; rewrite <- E at 1; apply complaint_fails|]. intros e He. rewrite <- E in He.
  destruct (drawn_alike ct _ (validation_form ct v)) as [(r & ws & x & y & _ & _ & _ & Ex & _)|(e' & Ex & _ & Ez)]; [cbn beta in Ex; congruence|exact Ez].
Qed.
Theorem same_documents inp loc src rk rk' c : parse_context inp loc rk src = Ok c -> exists c', parse_context inp loc rk' src = Ok c' /\ c_heap c' = c_heap c.
Proof. intro H. exists (retag rk' c). split; [exact (parse_retag _ _ _ _ _ _ H)|reflexivity]. Qed.
