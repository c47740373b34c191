(** SnippetRows: the rows of printed snippets, and the reporters errors are printed with. *)
From Coq Require Import Sorting.Sorted.
From Verif Require Import Base Types Regex Messages HeapFacts AnalyzerInv SpecText SpecTree AnalyzerText AnalyzerTree Reporter Errors Context Faults SpecReport ReportProofs SpecSnippet
  ReporterFacts ReporterTags ParseErrors ParseOutcome.

Lemma markup_cells num content cls : html_markup num content cls = html_cells cls num (escape content).
Proof. unfold html_markup, html_cells, html_div. rewrite <- !app_assoc. reflexivity. Qed.

(** * Reporters made for a context *)

Section Sound.
  Context (c : ctx).
  Definition sound (r : reporter) : Prop := r_ctx r = c /\ build_index c = Ok (r_index r) /\ length (r_snip r) = c_line_count c.
  Definition tags (s : snip) : Prop := length s = c_line_count c.

  Lemma fold_keeps {A S} (P : S -> Prop) (f : S -> A -> res S) : (forall s x s', P s -> f s x = Ok s' -> P s') ->
    forall l s s', P s -> foldM f l s = Ok s' -> P s'.
  Proof.
    intros Hf. induction l as [|x l IH]; intros s s' Hs; cbn [foldM]; [now intros [= <-]|].
    destruct (f s x) as [s1|] eqn:E; [|discriminate]. cbn [bind]. apply IH. exact (Hf _ _ _ Hs E).
  Qed.
  Lemma aset_keeps s i t s' : tags s -> aset s i t = Ok s' -> tags s'.
  Proof. unfold tags, aset. intros H. destruct (Nat.ltb i (length s)); [|discriminate]. intros [= <-]. now rewrite upd_length. Qed.
  Lemma gap_keeps n : forall scan t s s', tags s -> tag_gap n scan t s = Ok s' -> tags s'.
  Proof.
    induction n as [|n IH]; intros scan t s s' Hs; cbn [tag_gap]; [now intros [= <-]|]. destruct (aset s scan (Some t)) as [s1|] eqn:E; [|discriminate]. cbn [bind].
    apply IH. exact (aset_keeps _ _ _ _ Hs E).
  Qed.
  Definition tags1 {A} (a : snip * A) : Prop := tags (fst a).
  Lemma conts_keeps n t s a : tags s -> tag_continuations n t s = Ok a -> tags1 a.
  Proof.
    unfold tag_continuations. intros Hs. destruct (n_conts n) as [cs|]; [|now intros [= <-]].
    apply (fold_keeps tags1); [|exact Hs]. clear. intros [s scan] l a Hs. destruct (tag_gap _ scan t s) as [s1|] eqn:E1; [|discriminate]. cbn [bind].
    destruct (aset s1 _ _) as [s2|] eqn:E2; [|discriminate]. cbn [bind]. intros [= <-]. exact (aset_keeps _ _ _ _ (gap_keeps _ _ _ _ _ Hs E1) E2).
  Qed.
  Lemma continuables_keeps h n o t s a : tags s -> tag_continuables h n o t s = Ok a -> tags1 a.
  Proof.
    unfold tag_continuables. intros Hs. destruct o as [ids|]; [|now intros [= <-]].
    apply (fold_keeps tags1); [|exact Hs]. clear. intros [s scan] l a Hs. cbv zeta. destruct (tag_gap _ scan t s) as [s1|] eqn:E1; [|discriminate]. cbn [bind].
    destruct (aset s1 _ _) as [s2|] eqn:E2; [|discriminate]. cbn [bind]. apply conts_keeps. exact (aset_keeps _ _ _ _ (gap_keeps _ _ _ _ _ Hs E1) E2).
  Qed.
  Lemma pair_keeps {A} (x : res (snip * nat)) (f : nat -> A) a : (forall b, x = Ok b -> tags1 b) -> (do (s, sc) <- x; Ok (s, f sc)) = Ok a -> tags1 a.
  Proof. intros Hx. destruct x as [[s sc]|]; [|discriminate]. cbn [bind]. intros [= <-]. exact (Hx _ eq_refl). Qed.
  Lemma element_keeps fuel : forall h e t s a, tags s -> tag_element fuel h e t s = Ok a -> tags1 a.
  Proof.
    induction fuel as [|f IH]; intros h e t s a Hs; cbn [tag_element]; [discriminate|]. destruct (n_type (hget h e)); try (intros [= <-]; exact Hs).
    - apply pair_keeps. intros b. now apply conts_keeps.
    - destruct (n_entries (hget h e)) as [es|]; [|intros [= <-]; exact Hs]. apply pair_keeps. intros b. now apply continuables_keeps.
    - apply pair_keeps. intros b. now apply conts_keeps.
    - apply pair_keeps. intros b. now apply continuables_keeps.
    - apply pair_keeps. intros b. now apply conts_keeps.
    - destruct (match n_lines (hget h e) with Some ls => _ | None => _ end) as [s1|] eqn:E; [|discriminate]. cbn [bind].
      assert (tags s1) as H1.
      { destruct (n_lines (hget h e)) as [ls|]; [|now injection E as <-]. revert E. apply (fold_keeps tags); [|exact Hs]. clear. intros s l s' Hs. now apply aset_keeps. }
      destruct (n_end (hget h e)) as [l|].
      + destruct (aset s1 _ _) as [s2|] eqn:E2; [|discriminate]. cbn [bind]. intros [= <-]. exact (aset_keeps _ _ _ _ H1 E2).
      + destruct (n_lines (hget h e)); intros [= <-]; exact H1.
    - apply (fold_keeps tags1); [|exact Hs]. clear s a Hs. intros [s [scan|]] x a Hs; [|discriminate]. cbv zeta. destruct (tag_gap _ scan INDICATE s) as [s1|] eqn:E1; [|discriminate]. cbn [bind].
      destruct (aset s1 _ _) as [s2|] eqn:E2; [|discriminate]. cbn [bind]. apply IH. exact (aset_keeps _ _ _ _ (gap_keeps _ _ _ _ _ Hs E1) E2).
  Qed.
  Lemma flat_keeps fuel h t : forall els s sc s', tags s -> tag_flat fuel h els t s sc = Ok s' -> tags s'.
  Proof.
    induction els as [|x els IH]; intros s sc s' Hs; cbn [tag_flat]; [now intros [= <-]|]. destruct sc as [scan|]; [|discriminate]. cbv zeta.
    destruct (tag_gap _ scan INDICATE s) as [s1|] eqn:E1; [|discriminate]. cbn [bind]. pose proof (gap_keeps _ _ _ _ _ Hs E1) as H1.
    destruct (itype_eqb _ _); [now intros [= <-]|]. destruct (aset s1 _ _) as [s2|] eqn:E2; [|discriminate]. cbn [bind]. pose proof (aset_keeps _ _ _ _ H1 E2) as H2.
    destruct (tag_element fuel h x t s2) as [[s3 sc']|] eqn:E3; [|discriminate]. cbn [bind]. apply IH. exact (element_keeps _ _ _ _ _ _ H2 E3).
  Qed.

  Lemma sound_with r s : sound r -> tags s -> sound (with_snip r s).
  Proof. intros (H1 & H2 & _) Hs. split; [exact H1|]. split; [exact H2|exact Hs]. Qed.
  Lemma sound_new r : new_reporter c = Ok r -> sound r.
  Proof.
    unfold new_reporter. destruct (build_index c) as [ix|] eqn:E; [|discriminate]. cbn [bind]. intros [= <-]. split; [reflexivity|]. split; [assumption|]. apply repeat_length.
  Qed.
  Lemma sound_mark r l t r' : sound r -> mark_line r l t = Ok r' -> sound r'.
  Proof.
    intro Hr. unfold mark_line. destruct (aset _ _ _) as [s|] eqn:E; [|discriminate]. cbn [bind]. intros [= <-]. apply sound_with; [assumption|].
    exact (aset_keeps _ _ _ _ (proj2 (proj2 Hr)) E).
  Qed.
  Lemma sound_node r e t r' : sound r -> mark_node r e t = Ok r' -> sound r'.
  Proof. intro Hr. unfold mark_node. destruct (node_line _) as [l|]; [|discriminate]. cbn [bind]. now apply sound_mark. Qed.
  Lemma sound_element r e r' : sound r -> report_element r e = Ok r' -> sound r'.
  Proof.
    intro Hr. unfold report_element. destruct (mark_node r e EMPHASIZE) as [r1|] eqn:E; [|discriminate]. cbn [bind]. pose proof (sound_node _ _ _ _ Hr E) as H1.
    destruct (tag_element _ _ _ _ _) as [[s sc]|] eqn:E2; [|discriminate]. cbn [bind]. intros [= <-]. apply sound_with; [assumption|]. exact (element_keeps _ _ _ _ _ _ (proj2 (proj2 H1)) E2).
  Qed.
  Lemma sound_leaves r ls r' : sound r -> foldM report_leaf ls r = Ok r' -> sound r'.
  Proof. apply fold_keeps. intros s l s'. apply sound_mark. Qed.
  Lemma sound_comments r e r' : sound r -> report_comments r e = Ok r' -> sound r'.
  Proof.
    intro Hr. unfold report_comments. destruct (mark_node r e INDICATE) as [r1|] eqn:E; [|discriminate]. cbn [bind]. destruct (n_comments _); [|discriminate].
    apply sound_leaves. exact (sound_node _ _ _ _ Hr E).
  Qed.
  Lemma sound_elements r es r' : sound r -> report_elements r es = Ok r' -> sound r'.
  Proof. apply fold_keeps. intros s l s'. apply sound_element. Qed.
  Lemma sound_multiline r e r' : sound r -> report_multiline_value r e = Ok r' -> sound r'.
  Proof. intro Hr. unfold report_multiline_value. destruct (n_lines _); [|discriminate]. now apply sound_leaves. Qed.
  Lemma sound_missing r p r' : sound r -> report_missing_element r p = Ok r' -> sound r'.
  Proof.
    intro Hr. unfold report_missing_element. cbv zeta. destruct (if itype_eqb _ DOCUMENT then Ok r else _) as [r1|] eqn:E; [|discriminate]. cbn [bind].
    assert (sound r1) as H1 by (destruct (itype_eqb _ DOCUMENT); [now injection E as <-|exact (sound_mark _ _ _ _ Hr E)]).
    destruct (itype_eqb _ SECTION).
    - destruct (tag_flat _ _ _ _ _ _) as [s|] eqn:E2; [|discriminate]. cbn [bind]. intros [= <-]. apply sound_with; [assumption|]. exact (flat_keeps _ _ _ _ _ _ _ (proj2 (proj2 H1)) E2).
    - destruct (tag_element _ _ _ _ _) as [[s sc]|] eqn:E2; [|discriminate]. cbn [bind]. intros [= <-]. apply sound_with; [assumption|]. exact (element_keeps _ _ _ _ _ _ (proj2 (proj2 H1)) E2).
  Qed.

  (** * Snippets of errors *)

  Definition printed (t : text) : Prop := exists r, sound r /\ snippet r = Ok t.
  Lemma printed_report f t : (forall r r', sound r -> f r = Ok r' -> sound r') -> report c f = Ok t -> printed t.
  Proof.
    intro Hf. unfold report. destruct (new_reporter c) as [r|] eqn:E; [|discriminate]. cbn [bind]. destruct (f r) as [r'|] eqn:E2; [|discriminate]. cbn [bind].
    intro H. exists r'. split; [exact (Hf _ _ (sound_new _ E) E2)|assumption].
  Qed.
  Lemma build_printed t f sel x : (forall r r', sound r -> f r = Ok r' -> sound r') -> build t (report c f) sel = Ok x -> printed (er_snippet x).
  Proof. intros Hf H. apply build_ok in H as (_ & H & _). exact (printed_report f _ Hf H). Qed.

  Theorem validation_printed v x : validation_error c v = Ok x -> printed (er_snippet x).
  Proof.
    destruct v as [m e|m e|m e|m e|e|k e q|e|m e|k es q|k e q]; cbn [validation_error].
    - apply build_printed. intros r r'. apply sound_comments.
    - apply build_printed. intros r r'. apply sound_element.
    - apply build_printed. intros r r'. apply sound_node.
    - unfold v_value_error. cbv zeta. intro H.
      assert (forall f sel, (forall r r', sound r -> f r = Ok r' -> sound r') ->
        (do s <- report c f; do sel <- sel; Ok (MkErr (lc_value_error (c_locale c) m) s sel)) = Ok x -> printed (er_snippet x)) as K.
      { intros f sel Hf H0. apply bind_ok in H0 as (s & Hs & H0). apply bind_ok in H0 as (sl & _ & H0). injection H0 as <-. exact (printed_report f _ Hf Hs). }
      destruct (opt_is (n_mirror (hget (c_heap c) e))); [revert H; apply K; intros r r'; apply sound_node|].
      destruct (itype_eqb (n_type (hget (c_heap c) e)) MULTILINE_FIELD_BEGIN); [destruct (n_lines (hget (c_heap c) e))|]; (revert H; apply K; intros r r'; first [apply sound_multiline|apply sound_element]).
    - apply build_printed. intros r r'. apply sound_node.
    - apply build_printed. intros r r'. apply sound_missing.
    - unfold v_missing_value. cbv zeta. intro H. apply bind_ok in H as (mf & _ & H). apply bind_ok in H as (s & Hs & H). apply bind_ok in H as (to & _ & H).
      destruct mf as [[t f]|]; [|discriminate]. injection H as <-. revert Hs. apply printed_report. intros r r'. apply sound_element.
    - apply build_printed. intros r r'. apply sound_element.
    - apply build_printed. intros r r'. apply sound_elements.
    - apply build_printed. intros r r'. apply sound_element.
  Qed.

  Theorem parse_printed p x : parse_error c p = Ok x -> printed (er_snippet x).
  Proof.
    destruct p as [i|i|i|i|i s|e|i|i|i ch|a b d|i|i]; cbn [parse_error].
    - unfold invalid_line. intro H. apply bind_ok in H as (lr & _ & H). destruct (match_at _ _ _); revert H; [unfold unterminated_escaped_key|]; apply build_printed; intros r r'; apply sound_mark.
    - apply build_printed. intros r r'. apply sound_mark.
    - apply build_printed. intros r r'. apply sound_mark.
    - apply build_printed. intros r r'. apply sound_mark.
    - unfold section_hierarchy_layer_skip. intro H. apply bind_ok in H as (r & E0 & H). apply sound_new in E0. apply bind_ok in H as (r1 & E1 & H). apply sound_mark in E1; [|assumption].
      apply bind_ok in H as (r2 & E2 & H). assert (sound r2) as H2 by (destruct (itype_eqb _ _); [now injection E2 as <-|exact (sound_node _ _ _ _ E1 E2)]).
      apply build_ok in H as (_ & H & _). exists r2. auto.
    - unfold unterminated_multiline_field. intro H. apply bind_ok in H as (r & E0 & H). apply sound_new in E0. apply bind_ok in H as (r1 & E1 & H). apply sound_element in E1; [|assumption].
      apply bind_ok in H as (r2 & E2 & H). assert (sound r2) as H2.
      { revert E2. apply (fold_keeps sound); [|assumption]. clear. intros r l r' Hr H. apply bind_ok in H as (el & _ & H). destruct (Nat.ltb _ _); [exact (sound_mark _ _ _ _ Hr H)|now injection H as <-]. }
      apply build_ok in H as (_ & H & _). exists r2. auto.
    - apply build_printed. intros r r'. apply sound_node.
    - apply build_printed. intros r r'. apply sound_node.
    - unfold cyclic_dependency. cbv zeta. intro H. apply bind_ok in H as (lst & _ & H). apply bind_ok in H as (fst & _ & H). apply bind_ok in H as (copy & _ & H).
      apply bind_ok in H as (r & E0 & H). apply sound_new in E0. apply bind_ok in H as (r1 & E1 & H). apply sound_node in E1; [|assumption].
      apply bind_ok in H as (r2 & E2 & H). assert (sound r2) as H2.
      { revert E2. apply (fold_keeps sound); [|assumption]. clear. intros r l r' Hr H. destruct (Nat.eqb _ _); [now injection H as <-|exact (sound_node _ _ _ _ Hr H)]. }
      apply build_ok in H as (_ & H & _). exists r2. auto.
    - apply build_printed. intros r r' Hr H. apply bind_ok in H as (r1 & E1 & H). apply sound_node in E1; [|assumption]. apply bind_ok in H as (r2 & E2 & H). apply sound_node in E2; [|assumption].
      exact (sound_node _ _ _ _ E2 H).
    - apply build_printed. intros r r'. apply sound_node.
    - apply build_printed. intros r r'. apply sound_node.
  Qed.

  (** * Rows *)

  (** the ranges of a line are apart, or there is just the line *)
  Definition drawable (inp : text) (rs : ranges) : Prop := nested inp rs \/ exists s, rs = [(R_line, s)].
  (** what the index holds for each line *)
  Definition shows_all (stands : nat -> text -> Prop) : Prop := forall ix, build_index c = Ok ix -> forall j, j < c_line_count c ->
    match nth_error ix j with
    | Some (Some ri) => (exists t, line_content c ri = Ok t /\ stands j t) /\ drawable (c_input c) (ri_ranges ri)
    | _ => stands j []
    end.
  Lemma content_stands stands r j x : shows_all stands -> sound r -> j < c_line_count c ->
    match info_at r j with None => Ok [] | Some i => line_content c i end = Ok x -> stands j x.
  Proof.
    intros Ha (H1 & H2 & _) Hj. specialize (Ha _ H2 j Hj). unfold info_at. destruct (nth_error (r_index r) j) as [[ri|]|].
    - destruct Ha as [(t & E & Ht) _]. intros E'. assert (x = t) as -> by congruence. assumption.
    - now intros [= <-].
    - now intros [= <-].
  Qed.
  Lemma print_rows row dots stands pl s : (forall j t x, j < c_line_count c -> t <> OMISSION -> pl j t = Ok x -> exists content, stands j content /\ row (j + 1) content x) ->
    (forall j x, pl j OMISSION = Ok x -> x = dots) -> forall k ls, k + length s <= c_line_count c -> print_lines pl k s = Ok ls -> rows row dots stands k ls.
  Proof.
    intros H1 H2. assert (forall k k' ls, k <= k' -> rows row dots stands k' ls -> rows row dots stands k ls) as Hle.
    { intros k k' ls Hk H. destruct H as [k0|k0 j y x ls0 A1 A2 A3 A4|k0 j ls0 A1 A2]; [apply rows_end|apply rows_line with j y; auto; lia|apply rows_dots with j; auto; lia]. }
    induction s as [|o s IH]; intros k ls Hk; cbn [print_lines]; [intros [= <-]; constructor|]. cbn [length] in Hk. destruct o as [t|].
    - destruct (pl k t) as [x|] eqn:E; [|discriminate]. cbn [bind]. destruct (print_lines pl (S k) s) as [xs|] eqn:E2; [|discriminate]. cbn [bind]. intros [= <-].
      apply IH in E2; [|lia]. assert ({t = OMISSION} + {t <> OMISSION}) as [->|Ht] by (destruct t; ((left; reflexivity) || (right; discriminate))).
      + apply H2 in E. subst x. apply rows_dots with k; auto.
      + destruct (H1 k t x ltac:(lia) Ht E) as (y & Y1 & Y2). apply rows_line with k y; auto.
    - intro E. apply IH in E; [|lia]. apply (Hle k (S k)); auto.
  Qed.

  Lemma complete_length s s' : complete (c_line_count c) s = Ok s' -> length s' = length s.
  Proof.
    unfold complete. destruct (forallb _ s); [intros [= <-]; now rewrite map_length|]. cbv zeta.
    assert (forall l s, length (fold_left (complete_line (c_line_count c)) l s) = length s) as K.
    { induction l as [|x l IH]; intro s0; cbn [fold_left]; [reflexivity|]. rewrite IH. unfold complete_line. destruct (nth_error s0 x) as [[t|]|]; try reflexivity.
      destruct (_ || _); [apply upd_length|]. destruct (_ && _); [apply upd_length|reflexivity]. }
    destruct (rev _) as [|[t|] l]; [discriminate| |]; intros [= <-]; [|rewrite upd_length]; apply K.
  Qed.

  Lemma text_shows stands t : shows_all stands -> c_reporter c = TextReporter -> printed t -> text_snippet (c_locale c) (c_source c) stands t.
  Proof.
    intros Ha Hk (r & Hr & Ht). unfold snippet in Ht. rewrite (proj1 Hr) in Ht. apply bind_ok in Ht as (s & Es & Ht). apply complete_length in Es.
    rewrite (proj2 (proj2 Hr)) in Es. pose proof (sound_with r s Hr Es) as Hs. unfold print in Ht. rewrite (proj1 Hs), Hk in Ht. apply bind_ok in Ht as (ls & El & Ht).
    injection Ht as <-. exists ls. split; [reflexivity|]. revert El. apply print_rows; [| |cbn [with_snip r_snip]; lia].
    - intros j g x Hj Hg. unfold text_line. rewrite (proj1 Hs). cbv zeta.
      assert (forall y, match info_at (with_snip r s) j with None => Ok [] | Some i => line_content c i end = Ok y -> stands j y) as Kc by (intro y; now apply content_stands).
      assert (gutter_width c - 3 = length (gutter (c_locale c))) as Ew by (unfold gutter_width; change (gutter_header c) with (gutter (c_locale c)); lia).
      rewrite Ew. clear Ew. destruct g; [| | |congruence|]; (destruct (match info_at (with_snip r s) j with None => Ok [] | Some i => line_content c i end) as [y|]; [|discriminate]); cbn [bind];
        intros [= <-]; exists y; (split; [now apply Kc|]); eexists; (split; [|reflexivity]); cbn; auto.
    - intros j x. unfold text_line. rewrite (proj1 Hs). cbv zeta. intros [= <-]. unfold text_dots, rjust, gutter_width. change (gutter_header c) with (gutter (c_locale c)). f_equal. f_equal.
      change (length (U "...")) with 3. lia.
  Qed.
  Lemma html_shows stands t : shows_all stands -> c_reporter c = HtmlReporter -> printed t -> html_snippet (c_locale c) (c_source c) stands t.
  Proof.
    intros Ha Hk (r & Hr & Ht). unfold snippet in Ht. rewrite (proj1 Hr) in Ht. apply bind_ok in Ht as (s & Es & Ht). apply complete_length in Es.
    rewrite (proj2 (proj2 Hr)) in Es. pose proof (sound_with r s Hr Es) as Hs. unfold print in Ht. rewrite (proj1 Hs), Hk in Ht. apply bind_ok in Ht as (ls & El & Ht).
    assert (forall t, reads_as (escape t) t) as Hrd by (intro t0; split; [apply escape_inert|exists (length t0); now apply unescape_escape]).
    exists (escape (lc_content_header (c_locale c))), ls. split; [apply Hrd|]. split.
    - revert El. apply print_rows; [| |cbn [with_snip r_snip]; lia].
      + intros j g x Hj Hg. unfold html_line. rewrite (proj1 Hs). cbv zeta.
        assert (forall y, match info_at (with_snip r s) j with None => Ok [] | Some i => line_content c i end = Ok y -> stands j y) as Kc by (intro y; now apply content_stands).
        destruct g; [| | |congruence|]; (destruct (match info_at (with_snip r s) j with None => Ok [] | Some i => line_content c i end) as [y|]; [|discriminate]); cbn [bind];
          intros [= <-]; exists y; (split; [now apply Kc|]); (eexists; exists (escape y); split; [|split; [apply Hrd|]]); [|apply markup_cells| |apply markup_cells| |apply markup_cells| |apply markup_cells]; cbn; auto.
      + intros j x. unfold html_line. cbv zeta. intros [= <-]. apply markup_cells.
    - cbv zeta in *. rewrite markup_cells in Ht. destruct (c_source c) as [[|y l]|]; injection Ht as <-; reflexivity.
  Qed.

  (** * Painted lines *)

  Lemma slice_split s a b d : a <= b -> b <= d -> slice s a d = slice s a b ++ slice s b d.
  Proof.
    intros H1 H2. unfold slice. assert (skipn b s = skipn (b - a) (skipn a s)) as -> by (rewrite <- skipn_plus; f_equal; lia).
    generalize (skipn a s). intro u. replace (d - a) with ((b - a) + (d - b)) by lia. generalize (b - a) (d - b). clear. intros n m. revert u.
    induction n as [|n IH]; intros [|x u]; cbn; try (now rewrite ?firstn_nil). now rewrite <- IH.
  Qed.
  Lemma slice_size s a b : b <= length s -> length (slice s a b) = b - a.
  Proof. intro H. unfold slice. rewrite firstn_length, skipn_length. lia. Qed.

  Lemma painted_chars u t x : painted t x -> painted (u ++ t) (u ++ x).
  Proof. intro H. induction u as [|a u IH]; [exact H|]. now apply painted_char. Qed.
  Lemma painted_same t : painted t t.
  Proof. rewrite <- (app_nil_r t). apply painted_chars. constructor. Qed.
  Lemma range_paint nm a : range_style nm = Some a -> paint a.
  Proof. destruct nm; cbn [range_style]; intros [= <-]; first [exact (paint_one 37)|exact (paint_more 1 (style 97) (paint_one 97))|exact (paint_more 2 (style 37) (paint_one 37))]. Qed.

  Definition behind (x y : rname * (nat * nat)) : Prop := before (snd y) (snd x).
  Definition off (x y : rname * (nat * nat)) : Prop := before (snd x) (snd y) \/ before (snd y) (snd x).
  Lemma insert_in x l y : In y (insert_desc x l) <-> y = x \/ In y l.
  Proof.
    induction l as [|z l IH]; cbn [insert_desc]; [cbn; intuition|]. destruct (Nat.ltb _ _); cbn [In]; [intuition|]. rewrite IH. intuition.
  Qed.
  Lemma insert_sorted x l : StronglySorted behind l -> Forall (off x) l -> StronglySorted behind (insert_desc x l).
  Proof.
    induction 1 as [|y l H1 IH H2]; intro Ho; cbn [insert_desc]; [constructor; constructor|]. inversion_clear Ho as [|? ? O1 O2].
    destruct (Nat.ltb_spec (fst (snd y)) (fst (snd x))) as [Hl|Hl].
    - assert (behind x y) as B by (destruct O1 as [[? ?]|O1]; [lia|exact O1]). constructor; [constructor; assumption|]. constructor; [exact B|].
      eapply Forall_impl; [|exact H2]. intros z Z. unfold behind, before in *. lia.
    - assert (behind y x) as B by (destruct O1 as [O1|[? ?]]; [exact O1|lia]). constructor; [now apply IH|]. apply Forall_forall. intros z Hz. apply insert_in in Hz as [->|Hz]; [exact B|].
      rewrite Forall_forall in H2. now apply H2.
  Qed.
  Lemma sort_sorted rs : (forall x y, In x rs -> In y rs -> fst x <> fst y -> off x y) -> NoDup (map fst rs) ->
    StronglySorted behind (sort_desc rs) /\ forall y, In y (sort_desc rs) <-> In y rs.
  Proof.
    unfold sort_desc. intros Ho Hn.
    assert (forall l acc, (forall x y, In x l -> In y l \/ In y acc -> fst x <> fst y -> off x y) -> NoDup (map fst l) -> (forall x y, In x l -> In y acc -> fst x <> fst y) ->
      StronglySorted behind acc ->
      StronglySorted behind (fold_left (fun a x => insert_desc x a) l acc) /\ forall y, In y (fold_left (fun a x => insert_desc x a) l acc) <-> In y l \/ In y acc) as K.
    { clear. induction l as [|x l IH]; intros acc Ho Hn Hd Hs; cbn [fold_left]; [split; [assumption|]; cbn; intuition|].
      cbn [map] in Hn. inversion_clear Hn as [|? ? N1 N2]. destruct (IH (insert_desc x acc)) as [K1 K2].
      - intros a b Ha [Hb|Hb]; [apply Ho; cbn; auto|]. apply insert_in in Hb as [->|Hb]; apply Ho; cbn; auto.
      - assumption.
      - intros a b Ha Hb. apply insert_in in Hb as [->|Hb]; [|apply Hd; cbn; auto]. intro E. apply N1. rewrite <- E. now apply in_map.
      - apply insert_sorted; [assumption|]. apply Forall_forall. intros y Hy. apply Ho; cbn; auto. apply Hd; cbn; auto.
      - split; [assumption|]. intro y. rewrite K2, insert_in. cbn [In]. intuition. }
    destruct (K rs []) as [K1 K2].
    - intros x y Hx [Hy|[]]. now apply Ho.
    - assumption.
    - intros x y _ [].
    - constructor.
    - split; [assumption|]. intro y. rewrite K2. cbn. intuition.
  Qed.

  (** styles are put around the ranges of a line from its end to its begin *)
  Lemma paints inp lb le : lb <= le -> le <= length inp -> forall rs hi content x, StronglySorted behind rs ->
    (forall nm s, In (nm, s) rs -> lb <= fst s /\ fst s <= snd s /\ snd s <= hi) -> lb <= hi -> hi <= le ->
    (exists t, painted (slice inp hi le) t /\ content = slice inp lb hi ++ t) ->
    foldM (fun content x => let '(name, (b, e)) := x in
      match range_style name with
      | None => Raise KeyError
      | Some st => Ok (firstn (b - lb) content ++ st ++ slice inp b e ++ RESET ++ skipn (e - lb) content)
      end) rs content = Ok x -> painted (slice inp lb le) x.
  Proof.
    intros Hb He. induction rs as [|[nm [b e]] rs IH]; intros hi content x Hs Hin H1 H2 (t & Ht & Ec).
    - intros [= <-]. subst content. rewrite (slice_split inp lb hi le H1 H2). now apply painted_chars.
    - cbn [foldM]. destruct (range_style nm) as [st|] eqn:Est; [|discriminate]. cbn [bind]. inversion_clear Hs as [|? ? S1 S2].
      destruct (Hin nm (b, e) (or_introl eq_refl)) as (I1 & I2 & I3). cbn in I1, I2, I3.
      apply (IH b); [assumption| |assumption|lia|].
      + intros nm' s Hs. destruct (Hin nm' s (or_intror Hs)) as (J1 & J2 & _). rewrite Forall_forall in S2. destruct (S2 _ Hs) as [_ J]. cbn in J. auto.
      + exists (st ++ slice inp b e ++ RESET ++ slice inp e hi ++ t). split.
        * rewrite (slice_split inp b e le) by lia. rewrite (slice_split inp e hi le) by lia. change RESET with (style 0). apply painted_part; [exact (range_paint _ _ Est)|]. now apply painted_chars.
        * subst content. rewrite (slice_split inp lb b hi) by lia. rewrite (slice_split inp b e hi) by lia. 
          assert (forall a z, a <= z -> z <= length inp -> length (slice inp a z) = z - a) as Hl by (intros a z A1 A2; rewrite slice_size; lia).
          rewrite <- !app_assoc. rewrite firstn_app, (Hl lb b) by lia. rewrite Nat.sub_diag, firstn_O, app_nil_r. rewrite firstn_all2 by (rewrite Hl; lia).
          rewrite skipn_app, (Hl lb b) by lia. rewrite (skipn_all2 (slice inp lb b)) by (rewrite Hl; lia). cbn [app].
          rewrite skipn_app, (Hl b e) by lia. rewrite (skipn_all2 (slice inp b e)) by (rewrite Hl; lia). replace (e - lb - (b - lb) - (e - b)) with 0 by lia. reflexivity.
  Qed.
  Lemma line_painted ri ty t x : drawable (c_input c) (ri_ranges ri) -> line_content c ri = Ok t -> 
    (if itype_eqb ty COMMENT || itype_eqb ty UNPARSED then Ok (BRIGHT_BLACK ++ t ++ RESET)
     else foldM (fun content x => let '(name, (b, e)) := x in
       match range_style name with
       | None => Raise KeyError
       | Some st => Ok (firstn (b - fst (line_range (ri_ranges ri))) content ++ st ++ slice (c_input c) b e ++ RESET ++ skipn (e - fst (line_range (ri_ranges ri))) content)
       end) (sort_desc (filter (fun x => negb (rname_eqb (fst x) R_line)) (ri_ranges ri))) t) = Ok x -> painted t x.
  Proof.
    intros Hd Hl. destruct (_ || _).
    - intros [= <-]. rewrite <- (app_nil_r t) at 1. rewrite <- (app_nil_r RESET). apply (painted_part BRIGHT_BLACK); [exact (paint_one 90)|constructor].
    - destruct Hd as [(b & e & H1 & H2 & H3 & _ & _ & H4 & H5)|[s Es]].
      + unfold line_content in Hl. rewrite H1 in Hl. injection Hl as <-. unfold line_range. rewrite H1. cbn [fst].
        assert (forall y, In y (filter (fun x => negb (rname_eqb (fst x) R_line)) (ri_ranges ri)) <-> In y (ri_ranges ri) /\ fst y <> R_line) as Hf.
        { intro y. rewrite filter_In. split; intros [F1 F2]; (split; [assumption|]).
          - intro E. rewrite E in F2. discriminate.
          - destruct (fst y); try reflexivity. congruence. }
        destruct (sort_sorted (filter (fun x => negb (rname_eqb (fst x) R_line)) (ri_ranges ri))) as [S1 S2].
        * intros [n1 s1] [n2 s2] F1 F2 Hne. apply Hf in F1 as [F1 G1]. apply Hf in F2 as [F2 G2]. exact (proj2 H5 n1 s1 n2 s2 F1 F2 G1 G2 Hne).
        * destruct H5 as [H5 _]. revert H5. clear. generalize (ri_ranges ri). induction r as [|x r IH]; cbn; [constructor|]. intro H. inversion_clear H as [|? ? N1 N2].
          destruct (negb _); cbn; [|now apply IH]. constructor; [|now apply IH]. intro H. apply N1. apply in_map_iff in H as (y & E & Hy). apply filter_In in Hy as [Hy _]. rewrite <- E. now apply in_map.
        * apply (paints (c_input c) b e H2 H3 _ e); [assumption| |assumption|apply le_n|].
          -- intros nm s Hs. apply S2, Hf in Hs as [Hs _]. exact (H4 nm s Hs).
          -- exists []. split; [|now rewrite app_nil_r]. unfold slice. rewrite Nat.sub_diag. constructor.
      + rewrite Es. cbn. intros [= <-]. apply painted_same.
  Qed.
  Lemma terminal_shows stands t : shows_all stands -> c_reporter c = TerminalReporter -> printed t -> terminal_snippet (c_source c) stands t.
  Proof.
    intros Ha Hk (r & Hr & Ht). unfold snippet in Ht. rewrite (proj1 Hr) in Ht. apply bind_ok in Ht as (s & Es & Ht). apply complete_length in Es.
    rewrite (proj2 (proj2 Hr)) in Es. pose proof (sound_with r s Hr Es) as Hs. unfold print in Ht. rewrite (proj1 Hs), Hk in Ht. apply bind_ok in Ht as (ls & El & Ht).
    injection Ht as <-. exists (padding c), ls. split; [unfold padding; lia|]. split; [unfold terminal_header, terminal_top; destruct (c_source c) as [[|y l]|]; reflexivity|].
    revert El. apply print_rows; [| |cbn [with_snip r_snip]; lia].
    - intros j g x Hj Hg. unfold terminal_line. rewrite (proj1 Hs). cbv zeta.
      assert (forall y, match info_at (with_snip r s) j with
        | None => Ok []
        | Some i => match ri_type i with
          | None => Raise KeyError
          | Some ty => do t <- line_content c i; (if itype_eqb ty COMMENT || itype_eqb ty UNPARSED then Ok (BRIGHT_BLACK ++ t ++ RESET)
             else foldM (fun content x => let '(name, (b, e)) := x in
               match range_style name with
               | None => Raise KeyError
               | Some st => Ok (firstn (b - fst (line_range (ri_ranges i))) content ++ st ++ slice (c_input c) b e ++ RESET ++ skipn (e - fst (line_range (ri_ranges i))) content)
               end) (sort_desc (filter (fun x => negb (rname_eqb (fst x) R_line)) (ri_ranges i))) t)
          end
        end = Ok y -> exists content, stands j content /\ painted content y) as Kc.
      { intro y. specialize (Ha _ (proj1 (proj2 Hs)) j Hj). unfold info_at. destruct (nth_error (r_index (with_snip r s)) j) as [[ri|]|].
        - destruct Ha as [(u & E & Hu) Hd]. destruct (ri_type ri) as [ty|]; [|discriminate]. rewrite E. cbn [bind]. intro H. exists u. split; [assumption|]. exact (line_painted ri ty u y Hd E H).
        - intros [= <-]. exists []. split; [assumption|constructor].
        - intros [= <-]. exists []. split; [assumption|constructor]. }
      assert (forall g y, g <> OMISSION -> (exists content, stands j content /\ painted content y) ->
        exists content, stands j content /\ terminal_row (padding c) (j + 1) content
          (gutter_style g ++ U " " ++ indicator g ++ U " " ++ rjust (padding c) (dec (j + 1)) ++ U " " ++ RESET ++ U " " ++ y)) as Kr.
      { clear. intros g y Hg (u & H1 & H2). exists u. split; [assumption|].
        destruct g; [exists (style 40), 32%N, y|exists (style 30 ++ style 101), 62%N, y|exists (style 30 ++ style 47), 42%N, y|congruence|exists (style 30 ++ style 47), 63%N, y];
          (split; [first [exact (paint_one 40)|exact (paint_more 30 (style 101) (paint_one 101))|exact (paint_more 30 (style 47) (paint_one 47))]|]); (split; [cbn; auto|]); (split; [assumption|reflexivity]). }
      destruct g; [| | |congruence|]; intro H; apply bind_ok in H as (y & Hy & H); injection H as <-; exact (Kr _ y Hg (Kc y Hy)).
    - intros j x. unfold terminal_line. rewrite (proj1 Hs). intros [= <-]. reflexivity.
  Qed.
End Sound.
