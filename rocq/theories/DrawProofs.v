(** DrawProofs: the rows of reports, drawn by each reporter. *)
From Coq Require Import Permutation.
From Verif Require Import Base Regex Grammar Types Messages Scan Analyzer TokenStep ScanProofs ScanFacts StepProofs HeapFacts AnalyzerInv AnalyzerLoop StepChange SpecText AnalyzerText AnalyzerTiles
  AnalyzerLines AnalyzerFinal AnalyzerBounds SpecTree AnalyzerTree Resolver SpecResolve ResolverIndex ResolverFields ResolverSections ResolverFinal ResolverComments NumberOrder
  Reporter Errors Context Faults SpecLookup LookupDoc SpecSelect ReporterFacts ReporterTags ParseErrors ParseContext ParseOutcome SelectProofs SessionInv PropLookupProofs PrintDoc SpecPrint PrintProofs
  SpecReport ReportProofs SpecSnippet SnippetRows SnippetCover LocaleFree ReporterFree SpecDraw.

(** * Rows *)

Definition mark_of (t : tag) : mark := match t with EMPHASIZE => Main | INDICATE => Part | QUESTION => Asked | _ => Near end.
Definition content_at (r : reporter) (j : nat) : res text := match info_at r j with None => Ok [] | Some i => line_content (r_ctx r) i end.
Definition row_at (r : reporter) (j : nat) (t : tag) : res row :=
  match t with OMISSION => Ok Dots | _ => do x <- content_at r j; Ok (Line (j + 1) (mark_of t) x) end.
Fixpoint draw (f : nat -> tag -> res row) (k : nat) (s : snip) : res (list row) :=
  match s with
  | [] => Ok []
  | None :: s' => draw f (S k) s'
  | Some t :: s' => do x <- f k t; do xs <- draw f (S k) s'; Ok (x :: xs)
  end.
(** the rows of the completed snippet *)
Definition rows_of (r : reporter) : res (list row) :=
  do s <- complete (c_line_count (r_ctx r)) (r_snip r); draw (row_at r) 0 s.

Lemma draw_lines f pl (D : row -> text -> Prop) : (forall j t, match f j t with Ok w => exists x, pl j t = Ok x /\ D w x | Raise e => pl j t = Raise e end) ->
  forall s k, match draw f k s with Ok ws => exists ls, print_lines pl k s = Ok ls /\ Forall2 D ws ls | Raise e => print_lines pl k s = Raise e end.
Proof.
  intro H. induction s as [|[t|] s IH]; intro k; cbn [draw print_lines].
  - exists []. auto.
  - specialize (H k t). destruct (f k t) as [w|e]; [|now rewrite H]. destruct H as (x & -> & Hx). cbn [bind]. specialize (IH (S k)). destruct (draw f (S k) s) as [ws|e].
    + destruct IH as (ls & -> & Hls). exists (x :: ls). auto.
    + now rewrite IH.
  - apply IH.
Qed.
Lemma lines_draw f pl (D : row -> text -> Prop) : (forall j t x, pl j t = Ok x -> exists w, f j t = Ok w /\ D w x) ->
  forall s k ls, print_lines pl k s = Ok ls -> exists ws, draw f k s = Ok ws /\ Forall2 D ws ls.
Proof.
  intro H. induction s as [|[t|] s IH]; intros k ls; cbn [draw print_lines].
  - intros [= <-]. exists []. auto.
  - intro E. apply bind_ok in E as (x & Ex & E). apply bind_ok in E as (xs & Exs & E). injection E as <-. destruct (H _ _ _ Ex) as (w & -> & Hw). destruct (IH _ _ Exs) as (ws & -> & Hws).
    exists (w :: ws). auto.
  - apply IH.
Qed.
Lemma lines_all pl : forall s k, (exists ls, print_lines pl k s = Ok ls) <-> forall j t, nth_error s j = Some (Some t) -> exists x, pl (k + j) t = Ok x.
Proof.
  induction s as [|[t|] s IH]; intro k; cbn [print_lines].
  - split; [intros _ [|j] t; discriminate|eauto].
  - split.
    + intros [ls E]. apply bind_ok in E as (x & Ex & E). apply bind_ok in E as (xs & Exs & E). intros [|j] t'; cbn [nth_error].
      * intros [= <-]. rewrite Nat.add_0_r. eauto.
      * intro Hj. rewrite <- Nat.add_succ_comm. apply (proj1 (IH (S k))); [eauto|assumption].
    + intro H. destruct (H 0 t eq_refl) as [x Ex]. rewrite Nat.add_0_r in Ex. rewrite Ex. cbn [bind]. destruct (proj2 (IH (S k))) as [xs ->]; [|cbn [bind]; eauto].
      intros j t' Hj. specialize (H (S j) t' Hj). now rewrite <- Nat.add_succ_comm in H.
  - split.
    + intros E [|j] t'; cbn [nth_error]; [discriminate|]. rewrite <- Nat.add_succ_comm. now apply IH.
    + intro H. apply IH. intros j t' Hj. rewrite Nat.add_succ_comm. now apply H.
Qed.
Lemma lines_raise pl e : forall s k, print_lines pl k s = Raise e -> exists j t, pl j t = Raise e.
Proof.
  induction s as [|[t|] s IH]; intro k; cbn [print_lines]; [discriminate| |apply IH]. destruct (pl k t) as [x|y] eqn:E; cbn [bind]; [|intros [= ->]; eauto].
  destruct (print_lines pl (S k) s) as [xs|y] eqn:E2; cbn [bind]; [discriminate|]. intros [= ->]. exact (IH _ E2).
Qed.
Lemma draw_in f : forall s k ws, draw f k s = Ok ws -> forall w, In w ws <-> exists j t, nth_error s j = Some (Some t) /\ f (k + j) t = Ok w.
Proof.
  induction s as [|[t|] s IH]; intros k ws; cbn [draw].
  - intros [= <-] w. split; [intros []|]. intros ([|j] & t & H & _); discriminate.
  - intro E. apply bind_ok in E as (x & Ex & E). apply bind_ok in E as (xs & Exs & E). injection E as <-. intro w. cbn [In]. rewrite (IH _ _ Exs w). split.
    + intros [<-|(j & t' & H1 & H2)]; [exists 0, t; rewrite Nat.add_0_r; auto|]. exists (S j), t'. rewrite <- Nat.add_succ_comm. auto.
    + intros ([|j] & t' & H1 & H2); cbn [nth_error] in H1.
      * injection H1 as ->. rewrite Nat.add_0_r in H2. left. congruence.
      * right. exists j, t'. rewrite <- Nat.add_succ_comm in H2. auto.
  - intros E w. rewrite (IH _ _ E w). split.
    + intros (j & t' & H1 & H2). exists (S j), t'. rewrite <- Nat.add_succ_comm. auto.
    + intros ([|j] & t' & H1 & H2); cbn [nth_error] in H1; [discriminate|]. exists j, t'. rewrite <- Nat.add_succ_comm in H2. auto.
Qed.

Lemma reads_escape t : reads_as (escape t) t.
Proof. split; [apply escape_inert|exists (length t); now apply unescape_escape]. Qed.

Lemma text_draws r : match rows_of r with
  | Ok ws => exists s, snippet (rrt TextReporter r) = Ok s /\ text_report (c_locale (r_ctx r)) (c_source (r_ctx r)) ws s
  | Raise e => snippet (rrt TextReporter r) = Raise e end.
Proof.
  unfold rows_of, snippet. change (c_line_count (r_ctx (rrt TextReporter r))) with (c_line_count (r_ctx r)). change (r_snip (rrt TextReporter r)) with (r_snip r).
  destruct (complete _ _) as [s|e]; cbn [bind]; [|reflexivity]. change (print (with_snip (rrt TextReporter r) s)) with
    (do ls <- print_lines (text_line (with_snip (rrt TextReporter r) s)) 0 s; Ok (text_header (r_ctx r) ++ join [nl] ls)).
  assert (gutter_width (r_ctx r) - 3 = length (gutter (c_locale (r_ctx r)))) as Ew by (unfold gutter_width; change (gutter_header (r_ctx r)) with (gutter (c_locale (r_ctx r))); lia).
  pose proof (draw_lines (row_at r) (text_line (with_snip (rrt TextReporter r) s)) (text_drawn (c_locale (r_ctx r)))) as K.
  specialize (fun H => K H s 0). destruct (draw (row_at r) 0 s) as [ws|e].
  - destruct K as (ls & -> & Hls).
    + intros j t. unfold row_at, text_line. change (gutter_width (r_ctx (with_snip (rrt TextReporter r) s))) with (gutter_width (r_ctx r)). rewrite Ew.
      change (match info_at (with_snip (rrt TextReporter r) s) j with None => Ok [] | Some i => line_content (r_ctx (with_snip (rrt TextReporter r) s)) i end) with (content_at r j).
      destruct t; [| | |eexists; split; [reflexivity|]; cbn [text_drawn]|]; try (destruct (content_at r j); cbn [bind]; [|reflexivity]; eexists; split; reflexivity).
      unfold text_dots, rjust, gutter_width. change (gutter_header (r_ctx r)) with (gutter (c_locale (r_ctx r))). f_equal. f_equal. change (length (U "...")) with 3. lia.
    + cbn [bind]. eexists. split; [reflexivity|]. exists ls. split; [assumption|reflexivity].
  - rewrite K; [reflexivity|]. intros j t. unfold row_at, text_line. change (gutter_width (r_ctx (with_snip (rrt TextReporter r) s))) with (gutter_width (r_ctx r)). rewrite Ew.
      change (match info_at (with_snip (rrt TextReporter r) s) j with None => Ok [] | Some i => line_content (r_ctx (with_snip (rrt TextReporter r) s)) i end) with (content_at r j).
      destruct t; [| | |eexists; split; [reflexivity|]; cbn [text_drawn]|]; try (destruct (content_at r j); cbn [bind]; [|reflexivity]; eexists; split; reflexivity).
      unfold text_dots, rjust, gutter_width. change (gutter_header (r_ctx r)) with (gutter (c_locale (r_ctx r))). f_equal. f_equal. change (length (U "...")) with 3. lia.
Qed.
Lemma markup_dots : html_markup (U "...") (U "...") [] = html_dots.
Proof. vm_compute. reflexivity. Qed.
Lemma html_draws r : match rows_of r with
  | Ok ws => exists s, snippet (rrt HtmlReporter r) = Ok s /\ html_report (c_locale (r_ctx r)) (c_source (r_ctx r)) ws s
  | Raise e => snippet (rrt HtmlReporter r) = Raise e end.
Proof.
  unfold rows_of, snippet. change (c_line_count (r_ctx (rrt HtmlReporter r))) with (c_line_count (r_ctx r)). change (r_snip (rrt HtmlReporter r)) with (r_snip r).
  destruct (complete _ _) as [s|e]; cbn [bind]; [|reflexivity]. unfold print. change (c_reporter (r_ctx (with_snip (rrt HtmlReporter r) s))) with HtmlReporter. cbv iota zeta.
  change (r_snip (with_snip (rrt HtmlReporter r) s)) with s. change (c_source (r_ctx (with_snip (rrt HtmlReporter r) s))) with (c_source (r_ctx r)). change (c_locale (r_ctx (with_snip (rrt HtmlReporter r) s))) with (c_locale (r_ctx r)).
  assert (forall j t, match row_at r j t with Ok w => exists x, html_line (with_snip (rrt HtmlReporter r) s) j t = Ok x /\ html_drawn w x | Raise e => html_line (with_snip (rrt HtmlReporter r) s) j t = Raise e end) as Kj.
  { intros j t. unfold row_at, html_line.
    change (match info_at (with_snip (rrt HtmlReporter r) s) j with None => Ok [] | Some i => line_content (r_ctx (with_snip (rrt HtmlReporter r) s)) i end) with (content_at r j).
    assert (forall m y, html_drawn (Line (j + 1) m y) (html_markup (dec (j + 1)) y (html_class m))) as G.
    { intros m y. exists (escape y). split; [apply reads_escape|apply markup_cells]. }
    destruct t.
    4: exists (html_markup (U "...") (U "...") []).
    4: split; [reflexivity|exact markup_dots].
    all: destruct (content_at r j) as [y|]; [|reflexivity].
    all: cbn [bind mark_of].
    - eexists. split; [reflexivity|]. exact (G Near y).
    - assert ((U "eno-report-line-emphasized") = (html_class Main)) as -> by (unfold html_class; reflexivity). eexists. split; [reflexivity|]. apply G.
    - assert ((U "eno-report-line-indicated") = (html_class Part)) as -> by (unfold html_class; reflexivity). eexists. split; [reflexivity|]. apply G.
    - assert ((U "eno-report-line-questioned") = (html_class Asked)) as -> by (unfold html_class; reflexivity). eexists. split; [reflexivity|]. apply G. }
  pose proof (draw_lines (row_at r) _ html_drawn Kj s 0) as K. destruct (draw (row_at r) 0 s) as [ws|e].
  - destruct K as (ls & -> & Hls). cbn [bind]. rewrite markup_cells.
    assert (forall t, t = (let body := U "<pre class=""eno-report"">" ++ html_cells [] (lc_gutter_header (c_locale (r_ctx r))) (escape (lc_content_header (c_locale (r_ctx r)))) ++ join [nl] ls ++ U "</pre>" in
      match c_source (r_ctx r) with Some (x :: s) => U "<div><div>" ++ (x :: s) ++ U "</div>" ++ body ++ U "</div>" | _ => body end) -> html_report (c_locale (r_ctx r)) (c_source (r_ctx r)) ws t) as G.
    { intros t Et. exists (escape (lc_content_header (c_locale (r_ctx r)))), ls. split; [apply reads_escape|]. split; [assumption|exact Et]. }
    destruct (c_source (r_ctx r)) as [[|y l]|]; (eexists; split; [reflexivity|apply G; reflexivity]).
  - now rewrite K.
Qed.

(** what the terminal reporter makes of a line *)
Definition terminal_content (r : reporter) (j : nat) : res text :=
  match info_at r j with
  | None => Ok []
  | Some i => match ri_type i with
    | None => Raise KeyError
    | Some ty => do t <- line_content (r_ctx r) i; (if itype_eqb ty COMMENT || itype_eqb ty UNPARSED then Ok (BRIGHT_BLACK ++ t ++ RESET)
       else foldM (fun content x => let '(name, (b, e)) := x in
         match range_style name with
         | None => Raise KeyError
         | Some st => Ok (firstn (b - fst (line_range (ri_ranges i))) content ++ st ++ slice (c_input (r_ctx r)) b e ++ RESET ++ skipn (e - fst (line_range (ri_ranges i))) content)
         end) (sort_desc (filter (fun x => negb (rname_eqb (fst x) R_line)) (ri_ranges i))) t)
    end
  end.
Definition drawables (r : reporter) : Prop := forall j ri, info_at r j = Some ri -> drawable (c_input (r_ctx r)) (ri_ranges ri).

Lemma content_painted r j x : drawables r -> terminal_content r j = Ok x -> exists t, content_at r j = Ok t /\ painted t x.
Proof.
  intros Hd. unfold terminal_content, content_at. destruct (info_at r j) as [ri|] eqn:Ei; [|intros [= <-]; exists []; split; [reflexivity|constructor]].
  destruct (ri_type ri) as [ty|]; [|discriminate]. intro H. apply bind_ok in H as (t & Et & H). exists t. split; [assumption|].
  exact (line_painted (r_ctx r) ri ty t x (Hd j ri Ei) Et H).
Qed.
Lemma content_key r j e : terminal_content r j = Raise e -> e = KeyError.
Proof.
  unfold terminal_content. destruct (info_at r j) as [ri|]; [|discriminate]. destruct (ri_type ri) as [ty|]; [|congruence].
  unfold line_content. destruct (rget _ _) as [[a b]|]; [|cbn; congruence]. cbn [bind]. destruct (_ || _); [discriminate|].
  generalize (sort_desc (filter (fun x => negb (rname_eqb (fst x) R_line)) (ri_ranges ri))). intro l. generalize (slice (c_input (r_ctx r)) a b). induction l as [|[nm [b' e']] l IH]; intro t; [discriminate|].
  cbn [foldM]. destruct (range_style nm); [cbn [bind]; apply IH|]. cbn. congruence.
Qed.
Lemma terminal_line_eq r s j t : t <> OMISSION -> terminal_line (with_snip (rrt TerminalReporter r) s) j t = (do y <- terminal_content r j;
  Ok (gutter_style t ++ U " " ++ indicator t ++ U " " ++ rjust (padding (r_ctx r)) (dec (j + 1)) ++ U " " ++ RESET ++ U " " ++ y)).
Proof. intro Ht. destruct t; try reflexivity. congruence. Qed.

Lemma terminal_print r s : complete (c_line_count (r_ctx r)) (r_snip r) = Ok s -> snippet (rrt TerminalReporter r) =
  (do ls <- print_lines (terminal_line (with_snip (rrt TerminalReporter r) s)) 0 s; Ok (terminal_header (r_ctx r) ++ join [nl] ls)).
Proof.
  intro E. unfold snippet. change (c_line_count (r_ctx (rrt TerminalReporter r))) with (c_line_count (r_ctx r)). change (r_snip (rrt TerminalReporter r)) with (r_snip r).
  rewrite E. reflexivity.
Qed.
Lemma tag_dec (t : tag) : {t = OMISSION} + {t <> OMISSION}.
Proof. destruct t; ((left; reflexivity) || (right; discriminate)). Qed.
Lemma terminal_draws r s : drawables r -> snippet (rrt TerminalReporter r) = Ok s ->
  exists ws, rows_of r = Ok ws /\ terminal_report (c_source (r_ctx r)) ws s.
Proof.
  intros Hd Hs. unfold rows_of. destruct (complete (c_line_count (r_ctx r)) (r_snip r)) as [sn|e] eqn:Ec.
  2:{ exfalso. unfold snippet in Hs. change (c_line_count (r_ctx (rrt TerminalReporter r))) with (c_line_count (r_ctx r)) in Hs. change (r_snip (rrt TerminalReporter r)) with (r_snip r) in Hs.
      rewrite Ec in Hs. discriminate. }
  rewrite (terminal_print r sn Ec) in Hs. apply bind_ok in Hs as (ls & El & Hs). injection Hs as <-. cbn [bind].
  edestruct (lines_draw (row_at r) (terminal_line (with_snip (rrt TerminalReporter r) sn)) (terminal_drawn (padding (r_ctx r)))) as (ws & E & Hws); [|exact El|].
  - intros j t x. destruct (tag_dec t) as [->|Ht].
    + intros [= <-]. exists Dots. split; reflexivity.
    + rewrite terminal_line_eq by assumption. intro H. apply bind_ok in H as (y & Ey & H). injection H as <-. destruct (content_painted r j y Hd Ey) as (u & Eu & Hu).
      exists (Line (j + 1) (mark_of t) u). split; [unfold row_at; rewrite Eu; destruct t; try reflexivity; congruence|]. exists y. split; [assumption|]. destruct t; try reflexivity. congruence.
  - exists ws. split; [assumption|]. exists (padding (r_ctx r)), ls. split; [unfold padding; lia|]. split; [assumption|]. unfold terminal_header, terminal_top. destruct (c_source (r_ctx r)) as [[|y l]|]; reflexivity.
Qed.
(** the terminal reporter fails on rows it cannot draw, and only on them *)
Lemma terminal_fails r ws : rows_of r = Ok ws ->
  ((exists s, snippet (rrt TerminalReporter r) = Ok s) <-> forall j, shows_line (j + 1) ws -> exists x, terminal_content r j = Ok x) /\
  ((exists s, snippet (rrt TerminalReporter r) = Ok s) \/ snippet (rrt TerminalReporter r) = Raise KeyError).
Proof.
  intro H. unfold rows_of in H. apply bind_ok in H as (sn & Ec & Ed). rewrite (terminal_print r sn Ec). split.
  - assert (forall y : res (list text), (exists s, (do ls <- y; Ok (terminal_header (r_ctx r) ++ join [nl] ls)) = Ok s) <-> exists ls, y = Ok ls) as G.
    { intro y. destruct y; cbn; split; intros [? ?]; try discriminate; eauto. }
    rewrite G, lines_all. split.
    + intros H j (m & t & Hin). apply (draw_in _ _ _ _ Ed) in Hin as (j' & tg & Hj & Er). cbn [Nat.add] in Er. destruct (tag_dec tg) as [->|Ht]; [discriminate|].
      specialize (H j' tg Hj) as [x Hx]. cbn [Nat.add] in Hx. rewrite terminal_line_eq in Hx by assumption. apply bind_ok in Hx as (y & Ey & _).
      assert (j' = j) as -> by (unfold row_at in Er; destruct (content_at r j') as [u|]; destruct tg; cbn in Er; try discriminate; try congruence; injection Er; intros; lia). eauto.
    + intros H j tg Hj. cbn [Nat.add]. destruct (tag_dec tg) as [->|Ht]; [eexists; reflexivity|]. rewrite terminal_line_eq by assumption.
      assert (exists w, row_at r j tg = Ok w) as [w Hw].
      { clear - Ed Hj. revert Ed Hj. change j with (0 + j) at 2. generalize 0 as k. revert ws j. induction sn as [|[t|] sn IH]; intros ws j k; cbn [draw]; [destruct j; discriminate| |].
        - intro E. apply bind_ok in E as (x & Ex & E). apply bind_ok in E as (xs & Exs & E). destruct j as [|j]; cbn [nth_error]; [intros [= <-]; rewrite Nat.add_0_r; eauto|].
          intro Hj. rewrite <- Nat.add_succ_comm. eauto.
        - intro E. destruct j as [|j]; cbn [nth_error]; [discriminate|]. intro Hj. rewrite <- Nat.add_succ_comm. eauto. }
      assert (exists m u, w = Line (j + 1) m u) as (m & u & ->) by (unfold row_at in Hw; destruct (content_at r j) as [u|]; destruct tg; cbn in Hw; try discriminate; try congruence; injection Hw as <-; eauto).
      destruct (H j) as [y ->]; [|cbn [bind]; eauto]. exists m, u. apply (draw_in _ _ _ _ Ed). exists j, tg. auto.
  - destruct (print_lines _ 0 sn) as [ls|e] eqn:El; cbn [bind]; [eauto|]. right. apply lines_raise in El as (j & t & El). f_equal. destruct (tag_dec t) as [->|Ht]; [discriminate|].
    rewrite terminal_line_eq in El by assumption. destruct (terminal_content r j) as [y|e'] eqn:E; cbn [bind] in El; [discriminate|]. injection El as <-. exact (content_key _ _ _ E).
Qed.

(** * Errors of the three reporters *)

Definition like (x y : eno_error) : Prop := er_text y = er_text x /\ er_selection y = er_selection x.

Section Drawn.
  Context (c : ctx) (E : reporter_kind -> res eno_error) (HE : form c E).

  Lemma form_run f : steady f -> forall rk, report (retag rk c) f = (do r <- (do r <- new_reporter c; f r); snippet (rrt rk r)).
  Proof.
    intros Hf rk. unfold report, new_reporter. change (build_index (retag rk c)) with (build_index c). destruct (build_index c) as [ix|]; [|reflexivity]. cbn [bind].
    change (MkReporter (retag rk c) ix (repeat None (c_line_count (retag rk c)))) with (rrt rk (MkReporter c ix (repeat None (c_line_count c)))). rewrite (proj1 (Hf _) rk). now destruct (f _).
  Qed.
  (** all errors, or the same exception *)
  Theorem drawn_alike : (exists r ws x y, r_ctx r = c /\ build_index c = Ok (r_index r) /\ rows_of r = Ok ws /\ E TextReporter = Ok x /\ E HtmlReporter = Ok y /\ like x y /\
      text_report (c_locale c) (c_source c) ws (er_snippet x) /\ html_report (c_locale c) (c_source c) ws (er_snippet y) /\
      match snippet (rrt TerminalReporter r) with
      | Ok s => exists z, E TerminalReporter = Ok z /\ like x z /\ er_snippet z = s
      | Raise e => E TerminalReporter = Raise e
      end) \/
    (exists e, E TextReporter = Raise e /\ E HtmlReporter = Raise e /\ exists e', E TerminalReporter = Raise e').
  Proof.
    destruct HE as (pre & f & post & Hf & HEq). rewrite !HEq. destruct pre as [[]|e]; cbn [bind]; [|right; eauto 6].
    rewrite !(form_run f Hf). destruct (new_reporter c) as [r0|e] eqn:E0; cbn [bind]; [|right; eauto 6]. unfold new_reporter in E0. destruct (build_index c) as [ix|] eqn:Eb; [|discriminate].
    injection E0 as <-. destruct (f _) as [r|e] eqn:Er; cbn [bind]; [|right; eauto 6]. destruct (proj2 (Hf _) r Er) as [S1 S2]. cbn in S1, S2.
    pose proof (text_draws r) as T. pose proof (html_draws r) as H. rewrite S1 in T, H. destruct (rows_of r) as [ws|e] eqn:Ew.
    - destruct T as (s1 & -> & T). destruct H as (s2 & -> & H). cbn [bind]. destruct post as [[t sel]|e]; cbn [bind fst snd].
      + left. exists r, ws. do 2 eexists. split; [assumption|]. split; [now rewrite S2|]. split; [exact Ew|]. split; [reflexivity|]. split; [reflexivity|]. split; [split; reflexivity|].
        split; [exact T|]. split; [exact H|]. destruct (snippet _) as [s3|e]; cbn [bind]; [|reflexivity]. eexists. split; [reflexivity|]. split; [split|]; reflexivity.
      + right. exists e. split; [reflexivity|]. split; [reflexivity|]. destruct (snippet _) as [s3|e']; cbn [bind]; eauto.
    - rewrite T, H. cbn [bind]. right. exists e. split; [reflexivity|]. split; [reflexivity|].
      destruct (complete (c_line_count (r_ctx r)) (r_snip r)) as [sn|e0] eqn:Ec.
      + unfold rows_of in Ew. rewrite Ec in Ew. cbn [bind] in Ew. rewrite (terminal_print r sn Ec).
        destruct (print_lines _ 0 sn) as [ls|e1] eqn:El; cbn [bind]; [|eauto]. exfalso.
        edestruct (lines_draw (row_at r) (terminal_line (with_snip (rrt TerminalReporter r) sn)) (fun _ _ => True)) as (ws & Ews & _); [|exact El|congruence].
        intros j t x. destruct (tag_dec t) as [->|Ht]; [intros _; exists Dots; split; [reflexivity|exact I]|]. rewrite terminal_line_eq by assumption. intro G. apply bind_ok in G as (y & Ey & _).
        unfold terminal_content in Ey. unfold row_at, content_at. destruct (info_at r j) as [ri|]; [|destruct t; eexists; (split; [reflexivity|exact I])].
        destruct (ri_type ri); [|discriminate]. apply bind_ok in Ey as (u & -> & _). destruct t; eexists; (split; [reflexivity|exact I]).
      + unfold snippet. change (c_line_count (r_ctx (rrt TerminalReporter r))) with (c_line_count (r_ctx r)). change (r_snip (rrt TerminalReporter r)) with (r_snip r). rewrite Ec. cbn [bind]. eauto.
  Qed.
End Drawn.
