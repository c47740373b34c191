(** ErrorCaches: the errors do not depend on what earlier reads cached in the instructions. *)
From Verif Require Import Base Regex Grammar Types Messages Analyzer Reporter Errors Context Reads.

Definition strip (h : heap) : heap := map bare h.
Definition strip_ctx (c : ctx) : ctx := with_heap c (strip (c_heap c)).
Definition strip_rep (r : reporter) : reporter := MkReporter (strip_ctx (r_ctx r)) (r_index r) (r_snip r).
Definition rmap {A B} (f : A -> B) (x : res A) : res B := match x with Ok a => Ok (f a) | Raise e => Raise e end.

Lemma hget_strip h i : hget (strip h) i = bare (hget h i).
Proof. unfold strip, hget. destruct (Nat.lt_ge_cases i (length h)) as [H|H].
  - rewrite (nth_indep _ _ (bare document_node)) by now rewrite map_length. now rewrite map_nth.
  - rewrite !nth_overflow; [reflexivity|assumption|now rewrite map_length].
Qed.
Lemma b_type n : n_type (bare n) = n_type n. Proof. reflexivity. Qed.
Lemma b_line n : n_line (bare n) = n_line n. Proof. reflexivity. Qed.
Lemma b_comments n : n_comments (bare n) = n_comments n. Proof. reflexivity. Qed.
Lemma b_conts n : n_conts (bare n) = n_conts n. Proof. reflexivity. Qed.
Lemma b_lines n : n_lines (bare n) = n_lines n. Proof. reflexivity. Qed.
Lemma b_end n : n_end (bare n) = n_end n. Proof. reflexivity. Qed.
Lemma b_elements n : n_elements (bare n) = n_elements n. Proof. reflexivity. Qed.
Lemma b_items n : n_items (bare n) = n_items n. Proof. reflexivity. Qed.
Lemma b_entries n : n_entries (bare n) = n_entries n. Proof. reflexivity. Qed.
Lemma b_key n : n_key (bare n) = n_key n. Proof. reflexivity. Qed.
Lemma b_template n : n_template (bare n) = n_template n. Proof. reflexivity. Qed.
Lemma b_mirror n : n_mirror (bare n) = n_mirror n. Proof. reflexivity. Qed.
Lemma b_parent n : n_parent (bare n) = n_parent n. Proof. reflexivity. Qed.
Lemma b_ranges n : n_ranges (bare n) = n_ranges n. Proof. reflexivity. Qed.
Lemma b_info n : node_info (bare n) = node_info n. Proof. reflexivity. Qed.
Lemma b_nline n : node_line (bare n) = node_line n. Proof. reflexivity. Qed.
Lemma b_conts_tag n t s : tag_continuations (bare n) t s = tag_continuations n t s. Proof. unfold tag_continuations. now rewrite b_conts, b_line. Qed.
Lemma b_ins n : node_ins (bare n) = node_ins n. Proof. reflexivity. Qed.
Ltac unbare := rewrite ?b_info, ?b_nline, ?b_conts_tag, ?b_ins, ?b_type, ?b_line, ?b_comments, ?b_conts, ?b_lines, ?b_end, ?b_elements, ?b_items, ?b_entries, ?b_key, ?b_template, ?b_mirror, ?b_parent, ?b_ranges.
Lemma strip_length h : length (strip h) = length h. Proof. apply map_length. Qed.
Lemma strip_same h h' : length h = length h' -> (forall i, bare (hget h i) = bare (hget h' i)) -> strip h = strip h'.
Proof.
  revert h'. induction h as [|n h IH]; intros [|n' h'] HL H; cbn in HL; try discriminate; [reflexivity|]. cbn. f_equal.
  - exact (H 0).
  - apply IH; [lia|]. intro i. exact (H (S i)).
Qed.

Lemma foldM_ext {A S} (f g : S -> A -> res S) l : (forall s x, f s x = g s x) -> forall s, foldM f l s = foldM g l s.
Proof. intro H. induction l as [|x l IH]; intro s; cbn; [reflexivity|]. rewrite H. destruct (g s x); cbn; auto. Qed.
Lemma bind_ext {A B} (x : res A) (f g : A -> res B) : (forall a, f a = g a) -> bind x f = bind x g.
Proof. intro H. destruct x; cbn; auto. Qed.

Lemma strip_continuables h o ix : index_continuables (strip h) o ix = index_continuables h o ix.
Proof. unfold index_continuables. destruct o as [l|]; [|reflexivity]. apply foldM_ext. intros s x. now rewrite hget_strip. Qed.
Lemma strip_traverse fuel h : forall s ix, traverse fuel (strip h) s ix = traverse fuel h s ix.
Proof.
  induction fuel as [|f IH]; intros s ix; cbn [traverse]; [reflexivity|]. rewrite hget_strip. apply foldM_ext. intros i e. rewrite hget_strip.
 unbare. apply bind_ext. intro ix1.
 unbare. apply bind_ext. intro ix2.
 unbare. destruct (n_type (hget h e)); try reflexivity; try apply IH; apply strip_continuables.
Qed.
Lemma strip_index c : build_index (strip_ctx c) = build_index c.
Proof. unfold build_index, strip_ctx, with_heap; cbn [c_heap c_line_count c_meta]. now rewrite strip_length, strip_traverse. Qed.
Lemma strip_new c : new_reporter (strip_ctx c) = rmap strip_rep (new_reporter c).
Proof. unfold new_reporter. rewrite strip_index. destruct (build_index c); reflexivity. Qed.
Lemma strip_tag_continuables h n coll t s : tag_continuables (strip h) n coll t s = tag_continuables h n coll t s.
Proof.
  unfold tag_continuables. destruct coll as [l|]; [|reflexivity]. apply foldM_ext. intros [s1 sc] x. now rewrite hget_strip.
Qed.
Lemma strip_tag fuel h : forall e t s, tag_element fuel (strip h) e t s = tag_element fuel h e t s.
Proof.
  induction fuel as [|f IH]; intros e t s; cbn [tag_element]; [reflexivity|]. rewrite hget_strip.
 unbare. destruct (n_type (hget h e)); try reflexivity.
  - unbare. destruct (n_entries (hget h e)); [|reflexivity]. now rewrite strip_tag_continuables.
  - now rewrite strip_tag_continuables.
  - unbare.
    apply foldM_ext. intros [s1 [sc|]] x; [|reflexivity]. rewrite hget_strip. unbare.
    apply bind_ext. intro s2. apply bind_ext. intro s3. apply IH.
Qed.
Lemma strip_flat fuel h els : forall t s sc, tag_flat fuel (strip h) els t s sc = tag_flat fuel h els t s sc.
Proof.
  induction els as [|e els IH]; intros t s sc; cbn [tag_flat]; [reflexivity|]. destruct sc as [sc|]; [|reflexivity]. rewrite hget_strip.
 unbare. apply bind_ext. intro s1.
  destruct (itype_eqb (n_type (hget h e)) SECTION); [reflexivity|]. apply bind_ext. intro s2. rewrite strip_tag. apply bind_ext. intros [s3 sc3]. apply IH.
Qed.

Lemma strip_mark_line r l t : mark_line (strip_rep r) l t = rmap strip_rep (mark_line r l t).
Proof. unfold mark_line. cbn [strip_rep r_snip]. destruct (aset (r_snip r) l (Some t)); reflexivity. Qed.
Lemma strip_mark_node r e t : mark_node (strip_rep r) e t = rmap strip_rep (mark_node r e t).
Proof.
  unfold mark_node, r_heap. cbn [strip_rep r_ctx strip_ctx with_heap c_heap]. rewrite hget_strip.
 unbare.
  destruct (node_line (hget (c_heap (r_ctx r)) e)); cbn [bind]; [apply strip_mark_line|reflexivity].
Qed.
Lemma rmap_fold {A} (f : reporter -> A -> res reporter) l : (forall r x, f (strip_rep r) x = rmap strip_rep (f r x)) ->
  forall r, foldM f l (strip_rep r) = rmap strip_rep (foldM f l r).
Proof. intro H. induction l as [|x l IH]; intro r; cbn; [reflexivity|]. rewrite H. destruct (f r x); cbn; auto. Qed.
Lemma rmap_bind {A B} (x : res A) (g : A -> A) (f : A -> res B) : bind (rmap g x) f = bind x (fun a => f (g a)).
Proof. destruct x; reflexivity. Qed.
Lemma strip_report_comments r e : report_comments (strip_rep r) e = rmap strip_rep (report_comments r e).
Proof.
  unfold report_comments. rewrite strip_mark_node, rmap_bind. destruct (mark_node r e INDICATE) as [r1|]; cbn [bind]; [|reflexivity].
  unfold r_heap. cbn [strip_rep r_ctx strip_ctx with_heap c_heap]. rewrite hget_strip.
 unbare.
  destruct (n_comments (hget (c_heap (r_ctx r1)) e)); [|reflexivity]. apply (rmap_fold report_leaf). intros. apply strip_mark_line.
Qed.
Lemma strip_report_element r e : report_element (strip_rep r) e = rmap strip_rep (report_element r e).
Proof.
  unfold report_element. rewrite strip_mark_node, rmap_bind. destruct (mark_node r e EMPHASIZE) as [r1|]; cbn [bind]; [|reflexivity].
  unfold tfuel, r_heap. cbn [strip_rep r_ctx strip_ctx with_heap c_heap r_snip]. rewrite strip_length, strip_tag.
  destruct (tag_element (S (length (c_heap (r_ctx r1)))) (c_heap (r_ctx r1)) e INDICATE (r_snip r1)) as [[s1 sc]|]; reflexivity.
Qed.
Lemma strip_report_elements r es : report_elements (strip_rep r) es = rmap strip_rep (report_elements r es).
Proof. apply (rmap_fold report_element). intros. apply strip_report_element. Qed.
Lemma strip_report_multiline r e : report_multiline_value (strip_rep r) e = rmap strip_rep (report_multiline_value r e).
Proof.
  unfold report_multiline_value, r_heap. cbn [strip_rep r_ctx strip_ctx with_heap c_heap]. rewrite hget_strip.
 unbare.
  destruct (n_lines (hget (c_heap (r_ctx r)) e)); [|reflexivity]. apply (rmap_fold report_leaf). intros. apply strip_mark_line.
Qed.
Lemma strip_report_missing r e : report_missing_element (strip_rep r) e = rmap strip_rep (report_missing_element r e).
Proof.
  unfold report_missing_element. change (r_heap (strip_rep r)) with (strip (r_heap r)). rewrite hget_strip. cbv zeta. unbare.
  set (x := if itype_eqb (n_type (hget (r_heap r) e)) DOCUMENT then Ok r else mark_line r (n_line (hget (r_heap r) e)) INDICATE).
  assert ((if itype_eqb (n_type (hget (r_heap r) e)) DOCUMENT then Ok (strip_rep r) else mark_line (strip_rep r) (n_line (hget (r_heap r) e)) INDICATE) = rmap strip_rep x) as E.
  { subst x. destruct (itype_eqb (n_type (hget (r_heap r) e)) DOCUMENT); [reflexivity|apply strip_mark_line]. }
  rewrite E, rmap_bind. destruct x as [r1|]; cbn [bind]; [|reflexivity].
  unfold tfuel. change (r_heap (strip_rep r1)) with (strip (r_heap r1)). cbn [strip_rep r_snip]. rewrite strip_length, strip_flat, strip_tag.
  destruct (itype_eqb (n_type (hget (r_heap r) e)) SECTION).
  - destruct (tag_flat _ _ _ _ _ _); reflexivity.
  - destruct (tag_element _ _ _ _ _) as [[s1 sc]|]; reflexivity.
Qed.
Lemma strip_snippet r : snippet (strip_rep r) = snippet r.
Proof. reflexivity. Qed.

Lemma strip_report c f : (forall r, f (strip_rep r) = rmap strip_rep (f r)) -> report (strip_ctx c) f = report c f.
Proof.
  intro H. unfold report. rewrite strip_new, rmap_bind. destruct (new_reporter c) as [r|]; cbn [bind]; [|reflexivity]. rewrite H, rmap_bind.
  destruct (f r) as [r1|]; cbn [bind]; [|reflexivity]. apply strip_snippet.
Qed.

Lemma strip_last fuel h : forall e, last_in fuel (strip h) e = last_in fuel h e.
Proof.
  induction fuel as [|f IH]; intro e; cbn [last_in]; [reflexivity|]. rewrite hget_strip.
 unbare. destruct (n_type (hget h e)); try reflexivity.
  - unbare. destruct (n_entries (hget h e)); [|reflexivity]. apply bind_ext. apply IH.
  - unbare. destruct (n_items (hget h e)); [|reflexivity]. apply bind_ext. apply IH.
  - unbare. destruct (n_elements (hget h e)); [reflexivity|]. apply bind_ext. apply IH.
Qed.
Lemma strip_heap c : c_heap (strip_ctx c) = strip (c_heap c). Proof. reflexivity. Qed.
Lemma strip_select c e : select_element (strip_ctx c) e = select_element c e.
Proof.
  unfold select_element. rewrite strip_heap, strip_length, strip_last, hget_strip. reflexivity.
Qed.

Ltac strip_node := rewrite ?strip_heap, ?hget_strip; try reflexivity.
Lemma strip_comment_error c m e : v_comment_error (strip_ctx c) m e = v_comment_error c m e.
Proof. unfold v_comment_error. rewrite strip_report by (intro; apply strip_report_comments). unfold select_comments. strip_node. Qed.
Lemma strip_element_error c m e : v_element_error (strip_ctx c) m e = v_element_error c m e.
Proof. unfold v_element_error. rewrite strip_report by (intro; apply strip_report_element). now rewrite strip_select. Qed.
Lemma strip_key_error c m e : v_key_error (strip_ctx c) m e = v_key_error c m e.
Proof. unfold v_key_error. rewrite strip_report by (intro; apply strip_mark_node). unfold select_key. strip_node. Qed.
Lemma strip_missing_comment c e : v_missing_comment (strip_ctx c) e = v_missing_comment c e.
Proof. unfold v_missing_comment. rewrite strip_report by (intro; apply strip_mark_node). strip_node. Qed.
Lemma strip_missing_element c k e q : v_missing_element (strip_ctx c) k e q = v_missing_element c k e q.
Proof. unfold v_missing_element. rewrite strip_report by (intro; apply strip_report_missing). strip_node. Qed.
Lemma strip_missing_value c e : v_missing_value (strip_ctx c) e = v_missing_value c e.
Proof. unfold v_missing_value. rewrite strip_report by (intro; apply strip_report_element). unfold key. rewrite !strip_heap, hget_strip.
 unbare. destruct (n_type (hget (c_heap c) e)); try reflexivity.
 unbare. destruct (n_parent (hget (c_heap c) e)); [|reflexivity]. cbn [key_or bind].
  now rewrite hget_strip.
Qed.
Lemma strip_unexpected_element c m e : v_unexpected_element (strip_ctx c) m e = v_unexpected_element c m e.
Proof. unfold v_unexpected_element. rewrite strip_report by (intro; apply strip_report_element). now rewrite strip_select. Qed.
Lemma strip_multiple c k es q : v_unexpected_multiple_elements (strip_ctx c) k es q = v_unexpected_multiple_elements c k es q.
Proof. unfold v_unexpected_multiple_elements. rewrite strip_report by (intro; apply strip_report_elements). destruct es; [reflexivity|]. now rewrite strip_select. Qed.
Lemma strip_element_type c k e q : v_unexpected_element_type (strip_ctx c) k e q = v_unexpected_element_type c k e q.
Proof. unfold v_unexpected_element_type. rewrite strip_report by (intro; apply strip_report_element). now rewrite strip_select. Qed.
Lemma strip_value_error c m e : v_value_error (strip_ctx c) m e = v_value_error c m e.
Proof. unfold v_value_error. rewrite !strip_report by (intro; solve [apply strip_mark_node|apply strip_report_multiline|apply strip_report_element]). unfold select_key. strip_node. Qed.
