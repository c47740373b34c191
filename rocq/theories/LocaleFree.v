(** LocaleFree: reports and selections do not depend on locale and source label. *)
From Verif Require Import Base Regex Grammar Types Messages Analyzer Resolver Reporter Errors Context.

Definition relabel (l : locale) (s : option text) (c : ctx) : ctx :=
  MkCtx (c_input c) l (c_reporter c) s (c_heap c) (c_meta c) (c_line_count c).
Definition rmap {A B} (f : A -> B) (x : res A) : res B := match x with Ok a => Ok (f a) | Raise e => Raise e end.

(** both succeed, related, or both raise the same *)
Definition agree {A} (R : A -> A -> Prop) (x y : res A) : Prop :=
  match x, y with Ok a, Ok b => R a b | Raise e, Raise f => e = f | _, _ => False end.
Lemma agree_bind {A B} (R : A -> A -> Prop) (Q : B -> B -> Prop) x y f g :
  agree R x y -> (forall a b, R a b -> agree Q (f a) (g b)) -> agree Q (bind x f) (bind y g).
Proof. destruct x, y; cbn; intros H Hf; try contradiction; auto. Qed.
Lemma agree_refl {A} (x : res A) : agree eq x x.
Proof. destruct x; reflexivity. Qed.
Lemma agree_eq {A} (x y : res A) : x = y -> agree eq x y.
Proof. intros ->. apply agree_refl. Qed.
Lemma agree_any {A} (x y : res A) R : agree R x y -> agree (fun _ _ => True) x y.
Proof. destruct x, y; cbn; auto. Qed.

Section Relabel.
  Context (l : locale) (s : option text).
  Local Notation rl := (relabel l s).
  Definition rrl (r : reporter) : reporter := MkReporter (rl (r_ctx r)) (r_index r) (r_snip r).

  (** [f] ignores the labels *)
  Definition blind (f g : reporter -> res reporter) : Prop := forall r, g (rrl r) = rmap rrl (f r).

  Lemma rmap_bind {A B} (x : res A) (f : A -> res reporter) g (k : A -> B) :
    (forall a, g (k a) = rmap rrl (f a)) -> bind (rmap k x) g = rmap rrl (bind x f).
  Proof. intro H. destruct x; cbn; auto. Qed.
  Lemma same_bind {A} (x : res A) (f g : A -> res reporter) : (forall a, g a = rmap rrl (f a)) -> bind x g = rmap rrl (bind x f).
  Proof. intro H. destruct x; cbn; auto. Qed.

  Lemma new_blind c : new_reporter (rl c) = rmap rrl (new_reporter c).
  Proof. unfold new_reporter. change (build_index (rl c)) with (build_index c). apply same_bind. reflexivity. Qed.
  Lemma mark_line_blind n t : blind (fun r => mark_line r n t) (fun r => mark_line r n t).
  Proof. intro r. unfold mark_line. apply same_bind. reflexivity. Qed.
  Lemma mark_node_blind e t : blind (fun r => mark_node r e t) (fun r => mark_node r e t).
  Proof. intro r. unfold mark_node. apply same_bind. intro n. apply mark_line_blind. Qed.
  Lemma leaf_blind x : blind (fun r => report_leaf r x) (fun r => report_leaf r x).
  Proof. apply mark_line_blind. Qed.
  Lemma fold_blind {A} (f g : reporter -> A -> res reporter) :
    (forall a, blind (fun r => f r a) (fun r => g r a)) -> forall xs, blind (foldM f xs) (foldM g xs).
  Proof. intros H xs. induction xs as [|a xs IH]; intro r; [reflexivity|]. cbn. rewrite H. now apply rmap_bind. Qed.
  Lemma comments_blind e : blind (fun r => report_comments r e) (fun r => report_comments r e).
  Proof.
    intro r. unfold report_comments. rewrite mark_node_blind. apply rmap_bind. intro r'. change (r_heap (rrl r')) with (r_heap r').
    destruct (n_comments _); [|reflexivity]. apply fold_blind. intro a. apply leaf_blind.
  Qed.
  Lemma element_blind e : blind (fun r => report_element r e) (fun r => report_element r e).
  Proof. intro r. unfold report_element. rewrite mark_node_blind. apply rmap_bind. intro r'. apply same_bind. intros [x y]. reflexivity. Qed.
  Lemma elements_blind es : blind (fun r => report_elements r es) (fun r => report_elements r es).
  Proof. apply fold_blind. intro a. apply element_blind. Qed.
  Lemma multiline_blind e : blind (fun r => report_multiline_value r e) (fun r => report_multiline_value r e).
  Proof. intro r. unfold report_multiline_value. change (r_heap (rrl r)) with (r_heap r). destruct (n_lines _); [|reflexivity]. apply fold_blind. intro a. apply leaf_blind. Qed.
  Lemma missing_blind p : blind (fun r => report_missing_element r p) (fun r => report_missing_element r p).
  Proof.
    intro r. unfold report_missing_element. change (r_heap (rrl r)) with (r_heap r).
    destruct (itype_eqb (n_type (hget (r_heap r) p)) DOCUMENT).
    - cbn [bind]. destruct (itype_eqb _ SECTION); apply same_bind; [reflexivity|intros [x y]; reflexivity].
    - rewrite mark_line_blind. apply rmap_bind. intro r'. destruct (itype_eqb _ SECTION); apply same_bind; [reflexivity|intros [x y]; reflexivity].
  Qed.

  Lemma print_lines_blind f g : (forall n t, agree (fun _ _ => True) (f n t) (g n t)) ->
    forall sn n, agree (fun _ _ => True) (print_lines f n sn) (print_lines g n sn).
  Proof.
    intros H sn. induction sn as [|[t|] sn IH]; intro n; cbn; auto.
    eapply agree_bind; [apply H|]. intros ? ? _. eapply agree_bind; [apply IH|]. intros ? ? _. exact I.
  Qed.
  Lemma line_content_blind c i : line_content (rl c) i = line_content c i.
  Proof. reflexivity. Qed.
  Lemma print_blind r : agree (fun _ _ => True) (print r) (print (rrl r)).
  Proof.
    unfold print. cbn [r_ctx rrl]. change (c_reporter (rl (r_ctx r))) with (c_reporter (r_ctx r)). change (r_snip (rrl r)) with (r_snip r).
    destruct (c_reporter (r_ctx r)).
    - eapply agree_bind; [|intros; exact I]. apply print_lines_blind. intros n t. unfold text_line. destruct t; try exact I;
        (eapply agree_bind; [|intros; exact I]; change (info_at (rrl r) n) with (info_at r n); destruct (info_at r n); [apply agree_refl|reflexivity]).
    - eapply agree_bind with (R := fun _ _ => True).
      + apply print_lines_blind. intros n t. unfold html_line. destruct t; try exact I;
        (eapply agree_bind; [|intros; exact I]; change (info_at (rrl r) n) with (info_at r n); destruct (info_at r n); [apply agree_refl|reflexivity]).
      + intros a b _. destruct (c_source (r_ctx r)) as [[|]|], (c_source (rl (r_ctx r))) as [[|]|]; exact I.
    - eapply agree_bind; [|intros; exact I]. apply print_lines_blind. intros n t. unfold terminal_line. destruct t; try exact I;
        (eapply agree_bind; [apply agree_refl|intros; exact I]).
  Qed.
  Lemma snippet_blind r : agree (fun _ _ => True) (snippet r) (snippet (rrl r)).
  Proof.
    unfold snippet. change (complete (c_line_count (r_ctx (rrl r))) (r_snip (rrl r))) with (complete (c_line_count (r_ctx r)) (r_snip r)).
    eapply agree_bind; [apply agree_refl|]. intros a b <-. apply (print_blind (with_snip r a)).
  Qed.
  Lemma agree_rmap {A B} (x : res A) (k : A -> A) (f : A -> res B) g Q : (forall a, agree Q (f a) (g (k a))) -> agree Q (bind x f) (bind (rmap k x) g).
  Proof. intro H. destruct x; [apply H|reflexivity]. Qed.
  Lemma report_blind c f g : blind f g -> agree (fun _ _ => True) (report c f) (report (rl c) g).
  Proof.
    intro H. unfold report. rewrite new_blind. apply agree_rmap. intro r. rewrite H. apply agree_rmap. intro r'. apply snippet_blind.
  Qed.

  (** same selection *)
  Definition sel_eq (x y : eno_error) : Prop := er_selection x = er_selection y.
  Lemma build_blind t t' sn sn' sel sel' : agree (fun _ _ => True) t t' -> agree (fun _ _ => True) sn sn' -> sel = sel' ->
    agree sel_eq (build t sn sel) (build t' sn' sel').
  Proof.
    intros H1 H2 <-. unfold build. eapply agree_bind; [exact H1|]. intros ? ? _. eapply agree_bind; [exact H2|]. intros ? ? _.
    destruct sel; reflexivity.
  Qed.

  Lemma invalid_blind c i : agree sel_eq (invalid_line c i) (invalid_line (rl c) i).
  Proof.
    unfold invalid_line. eapply agree_bind; [apply agree_refl|]. intros lr _ <-. change (c_input (rl c)) with (c_input c).
    destruct (match_at _ _ _); apply build_blind; try exact I; try reflexivity; apply report_blind, leaf_blind.
  Qed.
  Lemma leaf_error_blind c m m' i : agree sel_eq (leaf_error c m i) (leaf_error (rl c) m' i).
  Proof. apply build_blind; [exact I|apply report_blind, leaf_blind|reflexivity]. Qed.
  Lemma node_error_blind c m m' e : (forall n, agree (fun _ _ => True) (m n) (m' n)) -> agree sel_eq (node_error c m e) (node_error (rl c) m' e).
  Proof.
    intro H. apply build_blind; [|apply report_blind, mark_node_blind|reflexivity].
    change (human_line (rl c) e) with (human_line c e). eapply agree_bind; [apply agree_refl|]. intros n _ <-. apply H.
  Qed.
  Lemma parse_error_blind c p : agree sel_eq (parse_error c p) (parse_error (rl c) p).
  Proof.
    destruct p; cbn [parse_error].
    - apply invalid_blind.
    - apply leaf_error_blind.
    - apply leaf_error_blind.
    - apply leaf_error_blind.
    - unfold section_hierarchy_layer_skip. rewrite new_blind. apply agree_rmap. intro r. rewrite leaf_blind. apply agree_rmap. intro r'.
      change (c_heap (rl c)) with (c_heap c). destruct (itype_eqb _ DOCUMENT).
      + cbn [bind]. apply build_blind; [exact I|apply snippet_blind|reflexivity].
      + unfold indicate_line. rewrite mark_node_blind. apply agree_rmap. intro r2. apply build_blind; [exact I|apply snippet_blind|reflexivity].
    - unfold unterminated_multiline_field. rewrite new_blind. apply agree_rmap. intro r. rewrite element_blind. apply agree_rmap. intro r'.
      change (c_heap (rl c)) with (c_heap c). change (c_meta (rl c)) with (c_meta c).
      match goal with |- agree _ _ (bind (foldM ?g ?xs (rrl r')) _) => assert (foldM g xs (rrl r') = rmap rrl (foldM g xs r')) as -> end.
      { apply fold_blind. intros z r2. apply same_bind. intro n. destruct (Nat.ltb _ _); [apply mark_line_blind|reflexivity]. }
      apply agree_rmap. intro r2. apply build_blind; [|apply snippet_blind|reflexivity].
      change (key (rl c) field) with (key c field). change (human_line (rl c) field) with (human_line c field).
      eapply agree_bind; [apply agree_refl|]. intros k _ <-. eapply agree_bind; [apply agree_refl|]. intros; exact I.
    - apply node_error_blind. intro; exact I.
    - apply node_error_blind. intro; exact I.
    - unfold cyclic_dependency. change (c_heap (rl c)) with (c_heap c).
      eapply agree_bind; [apply agree_refl|]. intros a _ <-. eapply agree_bind; [apply agree_refl|]. intros b _ <-.
      eapply agree_bind; [apply agree_refl|]. intros d _ <-. rewrite new_blind. apply agree_rmap. intro r.
      unfold report_line at 2. rewrite mark_node_blind. apply agree_rmap. intro r'.
      match goal with |- agree _ _ (bind (foldM ?g ?xs (rrl r')) _) => assert (foldM g xs (rrl r') = rmap rrl (foldM g xs r')) as -> end.
      { apply fold_blind. intros z r2. destruct (Nat.eqb _ _); [reflexivity|apply mark_node_blind]. } apply agree_rmap. intro r2.
      apply build_blind; [|apply snippet_blind|reflexivity].
      change (tpl (rl c) d) with (tpl c d). change (human_line (rl c) d) with (human_line c d).
      eapply agree_bind; [apply agree_refl|]. intros k _ <-. eapply agree_bind; [apply agree_refl|]. intros; exact I.
    - unfold two_or_more_templates_found. apply build_blind; [| |reflexivity].
      + change (tpl (rl c) copy) with (tpl c copy). eapply agree_bind; [apply agree_refl|]. intros; exact I.
      + apply report_blind. intro r. unfold report_line, question_line. rewrite mark_node_blind. apply rmap_bind. intro r1.
        rewrite mark_node_blind. apply rmap_bind. intro r2. apply mark_node_blind.
    - apply node_error_blind. intro n. change (tpl (rl c) copy) with (tpl c copy). eapply agree_bind; [apply agree_refl|]. intros; exact I.
    - apply node_error_blind. intro n. change (tpl (rl c) copy) with (tpl c copy). eapply agree_bind; [apply agree_refl|]. intros; exact I.
  Qed.
End Relabel.
