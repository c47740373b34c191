(** SelectProofs: selections lie inside the document. *)
From Verif Require Import Base Regex Grammar Types Messages Scan Analyzer HeapFacts AnalyzerInv SpecText AnalyzerText AnalyzerTiles AnalyzerLines AnalyzerFinal AnalyzerBounds SpecTree AnalyzerTree
  Resolver SpecResolve ResolverIndex ResolverFields ResolverSections ResolverComments StepChange TokenStep ScanProofs ScanFacts AnalyzerLoop Reporter Errors Context Faults SpecLookup SpecSelect ReporterFacts ReporterTags ParseErrors ParseContext ParseOutcome SpecErrors ParseTexts PropAnalysisProofs LookupDoc LookupProofs CommentLines RegexBounds.

(** [cu] is a position in the line of instruction [i] *)
Definition spot (i : ins) (cu : cursor_t) : Prop :=
  exists ln p, i_line i = Some ln /\ fst (line_range (i_ranges i)) <= p <= snd (line_range (i_ranges i)) /\
    cu = MkCursor (p - fst (line_range (i_ranges i))) p ln.

Lemma cursor_spot inp i r p cu : nested inp (i_ranges i) -> cursor i r p = Ok cu ->
  spot i cu /\ exists s, rget (i_ranges i) r = Some s /\ cu_index cu = at_pos p s.
Proof.
  intros Hn. unfold cursor. destruct (rget (i_ranges i) r) as [s|] eqn:E; [|discriminate]. destruct (nested_line _ _ Hn) as [El Hin].
  rewrite El. destruct (i_line i) as [ln|] eqn:Eln; [|discriminate]. cbn. intros [= <-]. split; [|exists s; auto].
  exists ln, (at_pos p s). split; [assumption|]. split; [|reflexivity]. destruct (Hin r s (rget_in _ _ _ E)) as (H1 & H2 & H3). destruct p; cbn [at_pos]; lia.
Qed.
Lemma spot_inside inp i cu : nested inp (i_ranges i) -> spot i cu -> inside inp cu.
Proof.
  intros (b & e & E & H1 & H2 & H3 & _) (ln & p & _ & Hp & ->). unfold line_range in Hp. rewrite E in Hp. cbn [fst snd] in Hp.
  exists b. cbn. unfold line_range. rewrite E. cbn [fst]. split; [assumption|]. lia.
Qed.
Lemma slice_in (inp : text) b p e x : p <= e -> In x (slice inp b p) -> In x (slice inp b e).
Proof.
  intros Hp Hin. unfold slice in *. replace (firstn (e - b) (skipn b inp)) with (firstn (p - b) (firstn (e - b) (skipn b inp) ) ++ skipn (p - b) (firstn (e - b) (skipn b inp))) by apply firstn_skipn.
  apply in_or_app. left. rewrite firstn_firstn. replace (Nat.min (p - b) (e - b)) with (p - b) by lia. exact Hin.
Qed.
Lemma spot_exact inp i cu : nested inp (i_ranges i) -> single_line inp (line_range (i_ranges i)) ->
  i_line i = Some (line_feeds_before inp (fst (line_range (i_ranges i)))) -> spot i cu -> exact inp cu.
Proof.
  intros (b & e & E & H1 & H2 & H3 & _) Hs Hl (ln & p & El & Hp & ->). rewrite Hl in El. injection El as <-.
  unfold line_range in *. rewrite E in *. cbn [fst snd] in *. exists b. cbn. split; [assumption|]. split; [lia|]. split; [lia|]. split; [reflexivity|].
  intro Hin. apply Hs. unfold at_range. cbn [fst snd]. apply slice_in with p; [lia|assumption].
Qed.

(** * Where selections come from *)

Definition source (c : ctx) (i : ins) : Prop :=
  (exists x, 0 < x < length (c_heap c) /\ (i = node_ins (hget (c_heap c) x) \/ exists l, In l (hanging (hget (c_heap c) x)) /\ i = leaf_ins l)) \/
  (exists l, In l (c_meta c) /\ nested (c_input c) (l_ranges l) /\ i = leaf_ins l).
Definition marks (c : ctx) (s : selection_t) : Prop :=
  exists i j, source c i /\ source c j /\ spot i (sel_from s) /\ spot j (sel_to s) /\ cu_index (sel_from s) <= cu_index (sel_to s).

Section Sel.
  Context (c : ctx) (Hwf : WF c).
  Local Notation h := (c_heap c).
  Local Notation nd := (hget (c_heap c)).
  Local Notation inp := (c_input c).

  Lemma source_node x : 0 < x < length h -> source c (node_ins (nd x)).
  Proof. intro Hx. left. exists x. auto. Qed.
  Lemma source_leaf x l : 0 < x < length h -> In l (hanging (nd x)) -> source c (leaf_ins l).
  Proof. intros Hx Hl. left. exists x. eauto. Qed.
  Lemma source_nested i : source c i -> nested inp (i_ranges i).
  Proof.
    intros [(x & Hx & [->|(l & Hl & ->)])|(l & _ & Hl & ->)]; [apply (wf_text _ Hwf x Hx)| |exact Hl].
    destruct (wf_text _ Hwf x Hx) as (_ & _ & _ & _ & _ & F). rewrite Forall_forall in F. apply (F l Hl).
  Qed.
  Lemma marks_inside s : marks c s -> selects (inside inp) s.
  Proof. intros (i & j & Hi & Hj & Si & Sj & Hle). split; [|split; [|exact Hle]]; [exact (spot_inside _ _ _ (source_nested _ Hi) Si)|exact (spot_inside _ _ _ (source_nested _ Hj) Sj)]. Qed.
  Lemma marks_exact s : (forall i, source c i -> single_line inp (line_range (i_ranges i)) /\
      forall ln, i_line i = Some ln -> ln = line_feeds_before inp (fst (line_range (i_ranges i)))) -> marks c s -> selects (exact inp) s.
  Proof.
    intros H (i & j & Hi & Hj & Si & Sj & Hle).
    assert (forall k, source c k -> forall cu, spot k cu -> exact inp cu) as K.
    { intros k Hk cu Sk. destruct (H k Hk) as [K1 K2]. apply (spot_exact _ k cu (source_nested _ Hk) K1); [|exact Sk].
      destruct Sk as (ln & p & El & _). now rewrite <- (K2 ln El). }
    split; [|split; [|exact Hle]]; eauto.
  Qed.

  Lemma range_marks i r s : source c i -> select_range i r = Ok s -> marks c s.
  Proof.
    intros Hi H. pose proof (source_nested _ Hi) as Hn. unfold select_range, selection in H. apply bind_ok in H as (a & Ha & H). apply bind_ok in H as (b & Hb & H).
    injection H as <-. destruct (cursor_spot _ _ _ _ _ Hn Ha) as (Sa & ra & Ra & Ia). destruct (cursor_spot _ _ _ _ _ Hn Hb) as (Sb & rb & Rb & Ib).
    rewrite Ra in Rb. injection Rb as <-. exists i, i. do 4 (split; [assumption|]). cbn. rewrite Ia, Ib. cbn [at_pos].
    destruct (nested_line _ _ Hn) as [_ Hin]. apply (Hin r ra). now apply rget_in.
  Qed.
  Lemma point_marks i r p s : source c i -> select_point i r p = Ok s -> marks c s.
  Proof.
    intros Hi H. pose proof (source_nested _ Hi) as Hn. unfold select_point, selection in H. apply bind_ok in H as (a & Ha & H). rewrite Ha in H. cbn [bind] in H.
    injection H as <-. destruct (cursor_spot _ _ _ _ _ Hn Ha) as (Sa & _). exists i, i. do 4 (split; [assumption|]). cbn. lia.
  Qed.
  (** from one line to a later one *)
  Lemma span_marks i j s : source c i -> source c j -> fst (line_range (i_ranges i)) <= snd (line_range (i_ranges j)) ->
    selection i R_line BEGIN j R_line END = Ok s -> marks c s.
  Proof.
    intros Hi Hj Hle H. pose proof (source_nested _ Hi) as Ni. pose proof (source_nested _ Hj) as Nj.
    unfold selection in H. apply bind_ok in H as (a & Ha & H). apply bind_ok in H as (b & Hb & H). injection H as <-.
    destruct (cursor_spot _ _ _ _ _ Ni Ha) as (Sa & ra & Ra & Ia). destruct (cursor_spot _ _ _ _ _ Nj Hb) as (Sb & rb & Rb & Ib).
    exists i, j. do 4 (split; [assumption|]). cbn. rewrite Ia, Ib. cbn [at_pos].
    unfold line_range in Hle. now rewrite Ra, Rb in Hle.
  Qed.
  (** from a line to the end of that line or a later one *)
  Lemma rest_marks i r p j a b : source c i -> source c j -> snd (line_range (i_ranges i)) <= snd (line_range (i_ranges j)) ->
    cursor i r p = Ok a -> cursor j R_line END = Ok b -> marks c (MkSel a b).
  Proof.
    intros Hi Hj Hle Ha Hb. pose proof (source_nested _ Hi) as Ni. pose proof (source_nested _ Hj) as Nj.
    destruct (cursor_spot _ _ _ _ _ Ni Ha) as (Sa & _). destruct (cursor_spot _ _ _ _ _ Nj Hb) as (Sb & rb & Rb & Ib).
    exists i, j. do 4 (split; [assumption|]). cbn. rewrite Ib. cbn [at_pos]. destruct Sa as (ln & q & _ & Hq & ->). cbn.
    unfold line_range in Hle at 2. rewrite Rb in Hle. lia.
  Qed.
End Sel.

(** * Parse errors *)

Section ParseSel.
  Context (c : ctx) (Hwf : WF c).
  Local Notation h := (c_heap c).
  Local Notation nd := (hget (c_heap c)).
  Local Notation inp := (c_input c).

  (** only an instruction of the document has a line *)
  Lemma cursor_source e r p cu : cursor (node_ins (nd e)) r p = Ok cu -> 0 < e < length h.
  Proof.
    unfold cursor. intro H. apply bind_ok in H as (s & _ & H). apply bind_ok in H as (lr & _ & H). apply bind_ok in H as (ln & H & _).
    unfold node_ins in H. cbn [i_line] in H. destruct (Nat.lt_ge_cases e (length h)) as [Hl|Hl].
    - split; [|assumption]. destruct e; [|lia]. pose proof (s_doc _ (sh_s _ (wf_shape _ Hwf))) as Hd. unfold ncls in Hd.
      destruct (n_type (nd 0)); discriminate.
    - unfold hget in H. rewrite nth_overflow in H by lia. discriminate.
  Qed.
  Lemma node_range_marks e r s : select_range (node_ins (nd e)) r = Ok s -> marks c s.
  Proof.
    intro H. apply (range_marks c Hwf (node_ins (nd e)) r); [|assumption]. apply source_node. unfold select_range, selection in H.
    apply bind_ok in H as (a & Ha & _). exact (cursor_source _ _ _ _ Ha).
  Qed.
  Lemma node_point_marks e r p s : select_point (node_ins (nd e)) r p = Ok s -> marks c s.
  Proof.
    intro H. apply (point_marks c Hwf (node_ins (nd e)) r p); [|assumption]. apply source_node. unfold select_point, selection in H.
    apply bind_ok in H as (a & Ha & _). exact (cursor_source _ _ _ _ Ha).
  Qed.

  Definition own_leaf (l : leaf) : Prop := In l (c_meta c) /\ nested inp (l_ranges l).
  Lemma source_meta l : own_leaf l -> source c (leaf_ins l).
  Proof. intros [H1 H2]. right. eauto. Qed.

  Lemma leaf_error_marks msg l x : own_leaf l -> leaf_error c msg l = Ok x -> marks c (er_selection x).
  Proof. intros Hl H. unfold leaf_error in H. apply build_ok in H as (_ & _ & H). apply (range_marks c Hwf _ _ _ (source_meta _ Hl) H). Qed.
  Lemma node_error_marks msg e x : node_error c msg e = Ok x -> marks c (er_selection x).
  Proof. intro H. unfold node_error in H. apply build_ok in H as (_ & _ & H). exact (node_range_marks _ _ _ H). Qed.
  Lemma invalid_line_marks l x : own_leaf l -> invalid_line c l = Ok x -> marks c (er_selection x).
  Proof.
    intros Hl H. unfold invalid_line in H. apply bind_ok in H as (lr & Hlr & H). unfold key_or in Hlr.
    destruct (rget (l_ranges l) R_line) as [lr'|] eqn:E; [|discriminate]. injection Hlr as <-.
    destruct (match_at _ _ _) as [mo|] eqn:Em.
    - unfold unterminated_escaped_key in H. apply build_ok in H as (_ & _ & H). rewrite E in H. cbn [key_or bind] in H.
      set (col := match mspan mo 1 with Some s => snd s | None => 0 end) in *.
      apply bind_ok in H as (b & Hb & H). injection H as Hsel.
      destruct (nested_line _ _ (proj2 Hl)) as [E1 _]. assert (lr' = line_range (l_ranges l)) as -> by congruence.
      assert (col <= length (slice inp (fst (line_range (l_ranges l))) (snd (line_range (l_ranges l))))) as Hcol.
      { unfold col. destruct (mspan mo 1) as [s|] eqn:Es; [|lia]. apply (match_at_bound _ _ 0 _ _ _ (Nat.le_0_l _) Em) in Es. lia. }
      destruct (proj2 Hl) as (lb & le & El & L1 & L2 & L3 & _). unfold line_range in Hcol. rewrite El in Hcol. cbn [fst snd] in Hcol.
      assert (col <= le - lb) as Hcol' by (unfold slice in Hcol; rewrite firstn_length in Hcol; lia).
      apply (rest_marks c Hwf (leaf_ins l) R_line BEGIN (leaf_ins l)) with (a := MkCursor 0 lb (l_line l)) in Hb as G; [|now apply source_meta|now apply source_meta|lia|].
      + destruct G as (i & j & G1 & G2 & G3 & G4 & G5).
        rewrite <- Hsel. exists (leaf_ins l), j. split; [now apply source_meta|]. split; [assumption|]. cbn [sel_from sel_to] in *. unfold line_range. rewrite El. cbn [fst snd]. split.
        * exists (l_line l), (lb + col). cbn. unfold line_range. rewrite El. cbn. split; [reflexivity|]. split; [lia|]. f_equal. lia.
        * split; [assumption|]. cbn. destruct (cursor_spot inp (leaf_ins l) R_line END b (proj2 Hl) Hb) as (_ & s & Rs & Is). cbn in Rs. rewrite El in Rs. injection Rs as <-. rewrite Is. cbn. lia.
      + unfold cursor. cbn [leaf_ins i_ranges i_line]. rewrite El. cbn [key_or bind at_pos fst]. now rewrite Nat.sub_diag.
    - apply build_ok in H as (_ & _ & H). apply (range_marks c Hwf _ _ _ (source_meta _ Hl) H).
  Qed.

  Definition leaf_of (p : perr) : option leaf :=
    match p with
    | PInvalidLine i | PMissingElementForContinuation i | PMissingListForItem i | PMissingFieldsetForEntry i | PLayerSkip i _ => Some i
    | _ => None
    end.
  Theorem parse_marks p x : (forall l, leaf_of p = Some l -> own_leaf l) -> parse_error c p = Ok x -> marks c (er_selection x).
  Proof.
    intros Hl H. destruct p as [i|i|i|i|i s|f|i|i|i ch|a b d|a|a]; cbn [parse_error leaf_of] in *;
      try (specialize (Hl i eq_refl)); try (exact (node_error_marks _ _ _ H)); try (exact (leaf_error_marks _ _ _ Hl H)).
    - exact (invalid_line_marks _ _ Hl H).
    - unfold section_hierarchy_layer_skip in H. do 3 (apply bind_ok in H as (? & _ & H)). apply build_ok in H as (_ & _ & H).
      exact (range_marks c Hwf _ _ _ (source_meta _ Hl) H).
    - unfold unterminated_multiline_field in H. do 3 (apply bind_ok in H as (? & _ & H)). apply build_ok in H as (_ & _ & H). exact (node_range_marks _ _ _ H).
    - unfold cyclic_dependency in H. apply bind_ok in H as (? & _ & H). apply bind_ok in H as (? & _ & H). apply bind_ok in H as (d & _ & H).
      do 3 (apply bind_ok in H as (? & _ & H)). apply build_ok in H as (_ & _ & H). exact (node_range_marks _ _ _ H).
    - unfold two_or_more_templates_found in H. apply build_ok in H as (_ & _ & H). exact (node_range_marks _ _ _ H).
  Qed.
End ParseSel.

(** * Validation errors *)

(** what the order of selections depends on *)
Record SDoc (h : heap) : Prop := {
  sd_node : forall x, 0 < x < length h -> exists a b, ascending a (line_range (n_ranges (hget h x)) :: map leaf_line (rest (hget h x))) b;
  sd_order : forall x y, 0 < x -> x < y < length h -> begins (hget h x) < begins (hget h y);
  sd_comments : forall x, 0 < x < length h -> exists a b, ascending a (map leaf_line (olist (n_comments (hget h x)))) b
}.

Section Validation.
  Context (c : ctx) (Hwf : WF c) (HS : SDoc (c_heap c)).
  Local Notation h := (c_heap c).
  Local Notation nd := (hget (c_heap c)).
  Local Notation inp := (c_input c).

  Lemma last_of_in {A} (l : list A) x : last_of l = Ok x -> In x l.
  Proof. unfold last_of. intro H. destruct (rev l) as [|y l'] eqn:E; [discriminate|]. injection H as ->. apply in_rev. rewrite E. now left. Qed.
  Lemma own_line x : 0 < x < length h -> begins (nd x) <= snd (line_range (n_ranges (nd x))).
  Proof. intro Hx. destruct (sd_node _ HS x Hx) as (a & b & H). apply ascending_last in H. unfold begins. lia. Qed.
  Lemma rest_line x l : 0 < x < length h -> In l (rest (nd x)) -> snd (line_range (n_ranges (nd x))) <= fst (leaf_line l) /\ fst (leaf_line l) <= snd (leaf_line l).
  Proof.
    intros Hx Hl. destruct (sd_node _ HS x Hx) as (a & b & H). destruct (line_range (n_ranges (nd x))) as [p q]. cbn [ascending] in H. destruct H as (_ & _ & H).
    apply (ascending_in _ _ _) with (s := leaf_line l) in H; [|now apply in_map]. cbn. lia.
  Qed.
  Lemma rest_hangs x l : In l (rest (nd x)) -> In l (hanging (nd x)).
  Proof. intro H. unfold hanging. apply in_or_app. now right. Qed.
  Lemma begins_le x y : 0 < x -> x <= y < length h -> begins (nd x) <= begins (nd y).
  Proof. intros Hx Hy. destruct (Nat.eq_dec x y) as [->|]; [lia|]. pose proof (sd_order _ HS x y Hx ltac:(lia)). lia. Qed.

  (** the last line of an element *)
  Lemma last_in_source fuel : forall e i, 0 < e < length h -> last_in fuel h e = Ok i ->
    source c i /\ begins (nd e) <= snd (line_range (i_ranges i)).
  Proof.
    induction fuel as [|f IH]; intros e i He; cbn [last_in]; [discriminate|].
    assert (forall i, Ok (node_ins (nd e)) = Ok i -> source c i /\ begins (nd e) <= snd (line_range (i_ranges i))) as Kself.
    { intros j [= <-]. split; [now apply source_node|]. now apply own_line. }
    assert (forall l i, (do x <- last_of l; last_in f h x) = Ok i -> (forall x, In x l -> e < x < length h) ->
      source c i /\ begins (nd e) <= snd (line_range (i_ranges i))) as Kkids.
    { intros l j H Hin. apply bind_ok in H as (x & Hx & H). apply last_of_in in Hx. pose proof (Hin x Hx) as Hlt. destruct (IH x j ltac:(lia) H) as [S1 S2].
      split; [assumption|]. pose proof (begins_le e x ltac:(lia) ltac:(lia)). lia. }
    assert (forall l i, In l (rest (nd e)) -> Ok (leaf_ins l) = Ok i -> source c i /\ begins (nd e) <= snd (line_range (i_ranges i))) as Kleaf.
    { intros l j Hl [= <-]. split; [apply source_leaf with e; [assumption|now apply rest_hangs]|]. destruct (rest_line e l He Hl) as [R1 R2].
      pose proof (own_line e He). cbn [leaf_ins i_ranges]. unfold leaf_line in *. lia. }
    pose proof (wf_shape _ Hwf) as Sh.
    assert (match n_conts (nd e) with Some cs => do l <- last_of cs; Ok (leaf_ins l) | None => Ok (node_ins (nd e)) end = Ok i ->
      source c i /\ begins (nd e) <= snd (line_range (i_ranges i))) as Kconts.
    { destruct (n_conts (nd e)) as [cs|] eqn:E; [|exact (Kself i)]. intro H. apply bind_ok in H as (l & Hl & H). apply last_of_in in Hl.
      apply (Kleaf l); [|assumption]. unfold rest. rewrite E. apply in_or_app. now left. }
    destruct (n_type (nd e)) eqn:Ety; try (exact (Kself i)); try exact Kconts.
    - destruct (n_entries (nd e)) as [es|] eqn:E; [|exact (Kself i)]. intro H. apply (Kkids es i H). intros x Hx. apply (shape_entry _ e x Sh). now rewrite E.
    - destruct (n_items (nd e)) as [es|] eqn:E; [|exact (Kself i)]. intro H. apply (Kkids es i H). intros x Hx. apply (shape_item _ e x Sh). now rewrite E.
    - intro H. apply bind_ok in H as (l & Hl & H). unfold key_or in Hl. destruct (n_end (nd e)) as [l'|] eqn:E; [|discriminate]. injection Hl as ->.
      apply (Kleaf l); [|assumption]. unfold rest. rewrite E. apply in_or_app. right. apply in_or_app. right. now left.
    - destruct (n_elements (nd e)) as [|y es] eqn:E; [exact (Kself i)|]. intro H. apply (Kkids (y :: es) i H). intros x Hx. apply (shape_elem _ e x Sh). now rewrite E.
  Qed.

  Lemma select_element_marks e s : select_element c e = Ok s -> marks c s.
  Proof.
    unfold select_element. intro H. apply bind_ok in H as (i & Hi & H). pose proof H as H'. unfold selection in H'. apply bind_ok in H' as (a & Ha & _).
    apply (cursor_source c Hwf) in Ha. destruct (last_in_source _ _ _ Ha Hi) as [S1 S2]. apply (span_marks c Hwf _ _ _ (source_node c _ Ha) S1 S2 H).
  Qed.
  Lemma comments_source e l : In l (olist (n_comments (nd e))) -> 0 < e < length h -> source c (leaf_ins l).
  Proof. intros Hl He. apply source_leaf with e; [assumption|]. unfold hanging. apply in_or_app. now left. Qed.
  Lemma ascending_ends a l b x y : ascending a (map leaf_line (x :: l)) b -> last_of (x :: l) = Ok y -> fst (leaf_line x) <= snd (leaf_line y).
  Proof.
    intros Ha Hl. apply last_of_in in Hl. cbn [map] in Ha. destruct (leaf_line x) as [p q] eqn:E. cbn [ascending] in Ha. destruct Ha as (H1 & H2 & H3). cbn [fst].
    destruct Hl as [<-|Hl]; [rewrite E; cbn; lia|]. apply (ascending_in _ _ _) with (s := leaf_line y) in H3; [|now apply in_map]. lia.
  Qed.
  Lemma leaves_marks ls x y s : (forall l, In l ls -> source c (leaf_ins l)) -> (exists a b, ascending a (map leaf_line ls) b) ->
    hd_error ls = Some x -> last_of ls = Ok y -> selection (leaf_ins x) R_line BEGIN (leaf_ins y) R_line END = Ok s -> marks c s.
  Proof.
    intros Hs (a & b & Ha) Hx Hy. destruct ls as [|z ls]; [discriminate|]. injection Hx as ->. pose proof (ascending_ends _ _ _ _ _ Ha Hy) as Hle. apply last_of_in in Hy.
    apply (span_marks c Hwf); [apply Hs; now left|apply Hs; exact Hy|exact Hle].
  Qed.

  Lemma select_comments_marks e s : e < length h -> (e = 0 -> n_comments (nd 0) = None) -> select_comments c e = Ok s -> marks c s.
  Proof.
    intros He H0. unfold select_comments. destruct (n_comments (nd e)) as [ls|] eqn:E; [|discriminate]. cbn [key_or bind].
    assert (0 < e < length h) as He' by (destruct e; [rewrite H0 in E by reflexivity; discriminate|lia]).
    assert (forall l, In l ls -> source c (leaf_ins l)) as Hs by (intros l Hl; apply comments_source with e; [now rewrite E|assumption]).
    destruct ls as [|x [|y ls]].
    - exact (node_point_marks c Hwf _ _ _ _).
    - destruct (l_text x); apply (range_marks c Hwf); apply Hs; now left.
    - intro H. apply bind_ok in H as (z & Hz & H). destruct (sd_comments _ HS e He') as (a & b & Ha). rewrite E in Ha. cbn [olist] in Ha.
      apply (leaves_marks _ _ _ _ Hs) with (3 := Hz) (4 := H); [eauto|reflexivity].
  Qed.

  Lemma missing_value_marks e x : v_missing_value c e = Ok x -> marks c (er_selection x).
  Proof.
    unfold v_missing_value. intro H. apply bind_ok in H as (mf & Hmf & H). apply bind_ok in H as (t & _ & H). apply bind_ok in H as (b & Hb & H).
    destruct mf as [[m f]|]; [|discriminate]. injection H as <-. cbn [er_selection].
    assert (exists r p, cursor (node_ins (nd e)) r p = Ok f) as (r & p & Hf).
    { destruct (n_type (nd e)); try discriminate; repeat (apply bind_ok in Hmf as (? & ? & Hmf)); injection Hmf as <- <-; 
        try (eexists; eexists; eassumption);
        match goal with H : (if ?x then _ else _) = Ok _ |- _ => destruct x; [eexists; eexists; eassumption|] end;
        match goal with H : (if ?x then _ else _) = Ok _ |- _ => destruct x; eexists; eexists; eassumption end. }
    pose proof (cursor_source c Hwf _ _ _ _ Hf) as He.
    assert (cursor (node_ins (nd e)) R_line END = Ok b \/ exists l, In l (rest (nd e)) /\ cursor (leaf_ins l) R_line END = Ok b) as [Hb'|(l & Hl & Hb')].
    { destruct (n_type (nd e)); try (left; exact Hb). destruct (n_conts (nd e)) as [cs|] eqn:E; [|now left]. right. apply bind_ok in Hb as (l & Hl & Hb).
      exists l. split; [|assumption]. unfold rest. rewrite E. apply in_or_app. left. now apply last_of_in. }
    - exact (rest_marks c Hwf _ _ _ _ _ _ (source_node c _ He) (source_node c _ He) (Nat.le_refl _) Hf Hb').
    - apply (rest_marks c Hwf _ _ _ _ _ _ (source_node c _ He) (source_leaf c e l He (rest_hangs _ _ Hl))) with (2 := Hf) (3 := Hb').
      destruct (rest_line e l He Hl). cbn [leaf_ins node_ins i_ranges]. unfold leaf_line in *. lia.
  Qed.

  Lemma value_error_marks m e x : v_value_error c m e = Ok x -> marks c (er_selection x).
  Proof.
    unfold v_value_error. destruct (opt_is (n_mirror (nd e))).
    { intro H. do 1 (apply bind_ok in H as (? & _ & H)). apply bind_ok in H as (s & Hs & H). injection H as <-. exact (node_range_marks c Hwf _ _ _ Hs). }
    destruct (itype_eqb (n_type (nd e)) MULTILINE_FIELD_BEGIN) eqn:Ety.
    { destruct (n_lines (nd e)) as [ls|] eqn:E; intro H; apply bind_ok in H as (? & _ & H); apply bind_ok in H as (s & Hs & H); injection H as <-; cbn [er_selection].
      - assert (0 < e < length h) as He.
        { destruct (Nat.lt_ge_cases e (length h)) as [Hl|Hl]; [|unfold hget in E; rewrite nth_overflow in E by lia; discriminate].
          split; [|assumption]. destruct e; [|lia]. pose proof (s_doc _ (sh_s _ (wf_shape _ Hwf))) as Hd. unfold ncls in Hd. destruct (n_type (nd 0)); discriminate. }
        apply bind_ok in Hs as (a & Ha & Hs). apply bind_ok in Hs as (b & Hb & Hs).
        apply (leaves_marks ls a b); try assumption.
        + intros l Hl. apply source_leaf with e; [assumption|]. apply rest_hangs. unfold rest. rewrite E. apply in_or_app. right. apply in_or_app. now left.
        + destruct (sd_node _ HS e He) as (lo & hi & Hasc). unfold rest in Hasc. rewrite E in Hasc.
          destruct (line_range (n_ranges (nd e))) as [p q]. cbn [ascending] in Hasc. destruct Hasc as (_ & _ & Hasc). rewrite map_app in Hasc.
          apply ascending_app in Hasc as (m1 & _ & Hasc). rewrite map_app in Hasc. apply ascending_app in Hasc as (m2 & Hasc & _). eauto.
        + destruct ls; [discriminate|]. now injection Ha as ->.
      - exact (node_point_marks c Hwf _ _ _ _ Hs). }
    intro H. apply bind_ok in H as (? & _ & H). apply bind_ok in H as (s & Hs & H). injection H as <-. cbn [er_selection].
    apply bind_ok in Hs as (f & Hf & Hs). apply bind_ok in Hs as (b & Hb & Hs). injection Hs as <-.
    assert (exists r p, cursor (node_ins (nd e)) r p = Ok f) as (r & p & Hf').
    { repeat match goal with H : (if ?x then _ else _) = Ok f |- _ => destruct x; [eexists; eexists; eassumption|] end. eexists; eexists; eassumption. }
    pose proof (cursor_source c Hwf _ _ _ _ Hf') as He.
    destruct (n_conts (nd e)) as [cs|] eqn:E.
    - apply bind_ok in Hb as (l & Hl & Hb). apply last_of_in in Hl. assert (In l (rest (nd e))) as Hl' by (unfold rest; rewrite E; apply in_or_app; now left).
      apply (rest_marks c Hwf _ _ _ _ _ _ (source_node c _ He) (source_leaf c e l He (rest_hangs _ _ Hl'))) with (2 := Hf') (3 := Hb).
      destruct (rest_line e l He Hl'). cbn [leaf_ins node_ins i_ranges]. unfold leaf_line in *. lia.
    - destruct (opt_is (rget (n_ranges (nd e)) R_value)) eqn:Ev.
      + apply (range_marks c Hwf (node_ins (nd e)) R_value); [now apply source_node|]. unfold select_range, selection. rewrite Hf, Hb. reflexivity.
      + exact (rest_marks c Hwf _ _ _ _ _ _ (source_node c _ He) (source_node c _ He) (Nat.le_refl _) Hf' Hb).
  Qed.

  Theorem validation_marks v x : n_comments (nd 0) = None -> validation_error c v = Ok x ->
    marks c (er_selection x) \/ er_selection x = DOCUMENT_BEGIN.
  Proof.
    intro H0. destruct v as [m e|m e|m e|m e|e|k p q|e|m e|k es q|k e q]; cbn [validation_error]; intro H.
    - left. unfold v_comment_error in H. apply build_ok in H as (_ & _ & H). apply select_comments_marks with e; [|congruence|assumption].
      destruct (Nat.lt_ge_cases e (length h)) as [Hl|Hl]; [assumption|]. unfold select_comments, hget in H. rewrite nth_overflow in H by lia. discriminate.
    - left. unfold v_element_error in H. apply build_ok in H as (_ & _ & H). exact (select_element_marks _ _ H).
    - left. unfold v_key_error in H. apply build_ok in H as (_ & _ & H). exact (node_range_marks c Hwf _ _ _ H).
    - left. exact (value_error_marks _ _ _ H).
    - left. unfold v_missing_comment in H. apply build_ok in H as (_ & _ & H). exact (node_point_marks c Hwf _ _ _ _ H).
    - unfold v_missing_element in H. apply build_ok in H as (_ & _ & H). destruct (itype_eqb _ _); [right; now injection H|left]. exact (node_point_marks c Hwf _ _ _ _ H).
    - left. exact (missing_value_marks _ _ H).
    - left. unfold v_unexpected_element in H. apply build_ok in H as (_ & _ & H). exact (select_element_marks _ _ H).
    - left. unfold v_unexpected_multiple_elements in H. apply build_ok in H as (_ & _ & H). destruct es as [|e es]; [discriminate|]. exact (select_element_marks _ _ H).
    - left. unfold v_unexpected_element_type in H. apply build_ok in H as (_ & _ & H). exact (select_element_marks _ _ H).
  Qed.
End Validation.

(** * Line numbers *)

Definition Tidy (inp : text) (h : heap) (meta : list leaf) : Prop :=
  (forall x, 0 < x < length h -> Forall (num_ok inp) (node_nums (hget h x)) /\ singles inp (hanging (hget h x))) /\
  (forall l, In l meta -> nested inp (l_ranges l) -> single_line inp (leaf_line l) /\ num_ok inp (leaf_num l)).

Lemma node_nums_hanging n : node_nums n = map leaf_num (olist (n_comments n)) ++ (n_line n, line_range (n_ranges n)) :: map leaf_num (rest n).
Proof. reflexivity. Qed.
Lemma hanging_rest n : hanging n = olist (n_comments n) ++ rest n.
Proof. reflexivity. Qed.

Lemma tidy_lined c : single_lines (c_input c) (c_heap c) -> Tidy (c_input c) (c_heap c) (c_meta c) ->
  forall i, source c i -> single_line (c_input c) (line_range (i_ranges i)) /\
    forall ln, i_line i = Some ln -> ln = line_feeds_before (c_input c) (fst (line_range (i_ranges i))).
Proof.
  intros Hs [T1 T2] i [(x & Hx & [->|(l & Hl & ->)])|(l & Hl & Hn & ->)].
  - destruct (T1 x Hx) as [N1 _]. split; [now apply Hs|]. intros ln. unfold node_ins. cbn [i_line i_ranges]. destruct (itype_eqb _ _); [discriminate|]. intros [= <-].
    rewrite Forall_forall in N1. apply (N1 (_, _)). rewrite node_nums_hanging. apply in_or_app. right. now left.
  - destruct (T1 x Hx) as [N1 N2]. unfold singles in N2. rewrite Forall_forall in N1, N2. split; [now apply N2|]. intros ln [= <-].
    apply (N1 (_, _)). rewrite node_nums_hanging. rewrite hanging_rest in Hl. apply in_app_iff in Hl as [Hl|Hl]; apply in_or_app.
    + left. now apply (in_map leaf_num _ l).
    + right. right. now apply (in_map leaf_num _ l).
  - destruct (T2 l Hl Hn) as [N1 N2]. split; [exact N1|]. intros ln [= <-]. exact N2.
Qed.

Lemma singles_own inp h : single_lines inp h -> Forall (single_line inp) (own_lines h).
Proof.
  intro H. unfold own_lines. rewrite Forall_map, Forall_forall. intros n Hn. apply In_nth with (d := document_node) in Hn as (k & Hk & <-).
  specialize (H (S k)). destruct h as [|d h]; [destruct k; cbn in Hk; lia|]. cbn in *. apply H. lia.
Qed.
Lemma reach_tidy inp st : reach inp st -> single_lines inp (a_heap st) -> Tidy inp (a_heap st) (a_meta st ++ olist (a_comments st)) /\
  a_line st = lines_before inp (a_index st).
Proof.
  intros Hr Hs. destruct (reach_lines _ _ Hr (singles_own _ _ Hs)) as (L1 & L2 & L3 & L4). destruct (reach_clines _ _ Hr) as [C1 C2 C3].
  pose proof (reach_single _ _ Hr) as R1. split; [|exact L1]. split.
  - intros x Hx. split.
    + rewrite Forall_forall in *. intros p Hp. apply L2. unfold heap_nums. apply in_flat_map. exists (hget (a_heap st) x). split; [now apply hget_in|assumption].
    + rewrite hanging_rest. apply Forall_app. split.
      * apply (tl_forall _ _ C1 x Hx).
      * apply (tl_forall _ _ R1 x Hx).
  - intros l Hl _. unfold singles in *. rewrite !Forall_map, Forall_forall in *. apply in_app_iff in Hl as [Hl|Hl]; auto.
Qed.
Lemma tidy_resolved inp h0 h meta : same_text h0 h -> comments_from h0 h -> (forall k, k = 0 \/ length h0 <= k -> n_comments (hget h0 k) = None) ->
  Tidy inp h0 meta -> Tidy inp h meta.
Proof.
  intros [Hl Ht] Hc H0 [T1 T2]. split; [|assumption]. intros x Hx. rewrite Hl in Hx. destruct (text_rest _ _ (Ht x)) as (E1 & E2 & E3 & _).
  destruct (T1 x Hx) as [N1 N2]. rewrite node_nums_hanging in *. rewrite hanging_rest in *. unfold singles in *. rewrite E1, E2, E3, !Forall_app in *.
  destruct (Hc x) as [k Hk]. rewrite Hk. destruct (le_lt_dec (length h0) k); [rewrite (H0 k) by auto; cbn [olist map]; intuition|].
  destruct (Nat.eq_dec k 0); [rewrite (H0 k) by auto; cbn [olist map]; intuition|].
  destruct (T1 k ltac:(lia)) as [M1 M2]. rewrite node_nums_hanging in *. rewrite hanging_rest in *. unfold singles in *. rewrite !Forall_app in *. tauto.
Qed.

Lemma tokenized_tidy inp fuel index line first ls lc : tokenize_error inp fuel index line first = Some (ls, lc) -> begins_line inp index \/ length inp < index ->
  lines_before inp index = line -> forall l, In l ls -> nested inp (l_ranges l) -> single_line inp (leaf_line l) /\ num_ok inp (leaf_num l).
Proof.
  intros Ht Hb Hl l Hin Hn. apply tokenize_spec in Ht as (K1 & K2 & K3 & K4 & K5 & K6 & K7).
  destruct (Nat.le_gt_cases index (length inp)) as [Hi|Hi].
  - assert (begins_line inp index) as Hb' by (destruct Hb; [assumption|lia]). specialize (K7 Hi Hb'). rewrite Forall_forall in K7.
    assert (Forall (fun lf => single_line inp (leaf_line lf)) ls) as Hsg by (rewrite Forall_forall; intros x Hx; apply (K7 x Hx)).
    destruct (tiles_nums inp index ls (S (length inp)) line (K5 Hi) Hsg K3 Hl) as [N _]. split; [apply (K7 l Hin)|].
    rewrite Forall_forall in N. apply N. now apply (in_map leaf_num _ l).
  - specialize (K6 Hi). exfalso. apply (in_map leaf_line) in Hin. rewrite K6 in Hin. destruct Hin as [Hin|[]].
    destruct Hn as (b & e & E & H1 & _). unfold leaf_line, line_range in Hin. rewrite E in Hin. injection Hin as <- <-. lia.
Qed.

(** the context of an error in the analysis *)
Lemma stopped_tidy inp e st lc : analyze inp = AErr e st lc -> single_lines inp (a_heap st) -> Tidy inp (a_heap st) (a_meta st).
Proof.
  intros Ha Hs. destruct (analyze_stopped _ _ _ _ Ha) as (st0 & Hr & Hix & Hst). destruct (reach_inv _ _ Hr) as [HI _].
  destruct (reach_text _ _ Hr) as [T1 _ _ _]. specialize (T1 ltac:(lia)).
  destruct Hst as [i ls H1 H2 H3 H4|op k j i ls H1 H2 H3 H4 H5 H6].
  - rewrite H2 in Hs |- *. rewrite H3. destruct (reach_tidy _ _ Hr Hs) as [[U1 U2] U3]. split; [assumption|]. intros l Hl Hn. apply in_app_iff in Hl as [Hl|Hl].
    + apply U2; [|assumption]. apply in_or_app. now left.
    + symmetry in U3. exact (tokenized_tidy _ _ _ _ _ _ _ H1 (or_introl T1) U3 l Hl Hn).
  - assert (a_lsec st0 < length (a_heap st0)) as Hsec by apply HI. pose proof (s_len _ (i_s _ _ _ _ _ HI)) as Hlen.
    assert (hget (a_heap st) (length (a_heap st0)) = multiline_node inp st0 j op k) as Hg by (rewrite H4; now apply app_upd_new).
    assert (length (a_heap st) = S (length (a_heap st0))) as Hl1 by (rewrite H4, app_upd_length; lia).
    assert (forall x, x < length (a_heap st0) -> stat (hget (a_heap st) x) = stat (hget (a_heap st0) x) /\ rest (hget (a_heap st) x) = rest (hget (a_heap st0) x)) as Hold.
    { intros x Hx. rewrite H4. unfold app_upd. destruct (Nat.eq_dec (a_lsec st0) x) as [->|Hne].
      - rewrite hget_upd_eq by (rewrite app_length; cbn; lia). unfold hget. rewrite app_nth1 by assumption. split; reflexivity.
      - rewrite hget_upd_neq by assumption. unfold hget. rewrite app_nth1 by assumption. split; reflexivity. }
    destruct (reach_tidy inp st0 Hr) as [[U1 U2] U3].
    { intros x Hx. destruct (Hold x ltac:(lia)) as [E _]. rewrite <- (stat_ranges _ _ E). apply Hs. lia. }
    destruct (scan_ok inp (a_index st0) _ j ltac:(lia) H1) as (Hie & Hle & Htok). pose proof (proj1 (line_end_ends _ _) Hle) as [Hjl Hje].
    assert (single_line inp (a_index st0, j)) as Hsj by exact (scan_single inp _ _ _ H1).
    destruct (reach_clines _ _ Hr) as [_ _ C3].
    split.
    + intros x Hx. destruct (Nat.eq_dec x (length (a_heap st0))) as [->|Hne].
      * rewrite Hg, node_nums_hanging, hanging_rest. change (rest (multiline_node inp st0 j op k)) with (@nil leaf). change (olist (n_comments (multiline_node inp st0 j op k))) with (olist (a_comments st0)).
        change (n_line (multiline_node inp st0 j op k), line_range (n_ranges (multiline_node inp st0 j op k))) with (a_line st0, (a_index st0, j)).
        rewrite app_nil_r. split; [|exact C3]. apply Forall_app. split; [|constructor; [|constructor]].
        -- rewrite Forall_map, Forall_forall. intros l Hl. apply (U2 l). { apply in_or_app. now right. }
           destruct (reach_text _ _ Hr) as [_ _ _ T4]. rewrite Forall_forall in T4. apply (T4 l Hl).
        -- unfold num_ok. cbn. rewrite U3. apply lines_before_in. lia.
      * destruct (Hold x ltac:(lia)) as [E1 E2]. rewrite node_nums_hanging, hanging_rest, E2, (stat_comments _ _ E1), (stat_line _ _ E1), (stat_ranges _ _ E1).
        rewrite <- node_nums_hanging, <- hanging_rest. apply U1. lia.
    + rewrite H5. intros l Hl Hn. apply in_app_iff in Hl as [Hl|Hl].
      * apply U2; [|assumption]. apply in_or_app. now left.
      * refine (tokenized_tidy _ _ _ _ _ _ _ H3 _ _ l Hl Hn).
        -- destruct (Nat.eq_dec j (length inp)) as [->|Hne]; [right; lia|left]. destruct Hje as [Hje|Hje]; [congruence|]. right. replace (S j - 1) with j by lia. exact Hje.
        -- rewrite U3. apply lines_next; [lia|lia|exact Hje|exact Hsj].
Qed.
