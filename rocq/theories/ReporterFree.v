(** ReporterFree: errors made with different reporters differ in the drawing of the snippet only. *)
From Verif Require Import Base Regex Grammar Types Messages Analyzer Resolver Reporter Errors Context Faults LocaleFree.

Definition retag (rk : reporter_kind) (c : ctx) : ctx :=
  MkCtx (c_input c) (c_locale c) rk (c_source c) (c_heap c) (c_meta c) (c_line_count c).
Definition rrt (rk : reporter_kind) (r : reporter) : reporter := MkReporter (retag rk (r_ctx r)) (r_index r) (r_snip r).
(** [f] does not look at the reporter, and adds marks only *)
Definition same_doc (r r' : reporter) : Prop := r_ctx r' = r_ctx r /\ r_index r' = r_index r.
Definition steady (f : reporter -> res reporter) : Prop :=
  forall r, (forall rk, f (rrt rk r) = rmap (rrt rk) (f r)) /\ forall r', f r = Ok r' -> same_doc r r'.

Section Retag.
  Lemma sd_refl r : same_doc r r. Proof. split; reflexivity. Qed.
  Lemma sd_trans a b d : same_doc a b -> same_doc b d -> same_doc a d.
  Proof. intros [H1 H2] [H3 H4]. split; congruence. Qed.
  Lemma st_seq f g : steady f -> steady g -> steady (fun r => do r <- f r; g r).
  Proof.
    intros Hf Hg r. destruct (Hf r) as [F1 F2]. split.
    - intro rk. rewrite F1. destruct (f r) as [r1|]; [apply (Hg r1)|reflexivity].
    - intros r' H. destruct (f r) as [r1|]; [|discriminate]. cbn [bind] in H. exact (sd_trans _ _ _ (F2 _ eq_refl) (proj2 (Hg r1) _ H)).
  Qed.
  Lemma st_id : steady Ok. Proof. intro r. split; [reflexivity|]. intros r' [= <-]. apply sd_refl. Qed.
  Lemma st_raise e : steady (fun _ => Raise e). Proof. intro r. split; [reflexivity|discriminate]. Qed.
  Lemma st_res {A} (x : res A) g : (forall a, x = Ok a -> steady (g a)) -> steady (fun r => do a <- x; g a r).
  Proof. intro H. destruct x as [a|e]; [exact (H a eq_refl)|apply st_raise]. Qed.
  (** [g] looks at the document only *)
  Lemma st_heap (g : heap -> reporter -> res reporter) : (forall h, steady (g h)) -> steady (fun r => g (r_heap r) r).
  Proof. intros H r. destruct (H (r_heap r) r) as [H1 H2]. split; [intro rk; apply (H1 rk)|exact H2]. Qed.
  Lemma st_snip (g : heap -> snip -> res snip) : steady (fun r => do s <- g (r_heap r) (r_snip r); Ok (with_snip r s)).
  Proof.
    intro r. split.
    - intro rk. change (r_heap (rrt rk r)) with (r_heap r). change (r_snip (rrt rk r)) with (r_snip r). now destruct (g _ _).
    - intros r' H. destruct (g _ _); [|discriminate]. injection H as <-. split; reflexivity.
  Qed.
  Lemma st_eq f g : (forall r, f r = g r) -> steady g -> steady f.
  Proof. intros H Hg r. destruct (Hg r) as [H1 H2]. split; [intro rk; rewrite !H; apply H1|]. intro r'. rewrite H. apply H2. Qed.
  Lemma st_fold {A} (f : reporter -> A -> res reporter) xs : (forall a, steady (fun r => f r a)) -> steady (foldM f xs).
  Proof. intro H. induction xs as [|a xs IH]; [apply st_id|]. exact (st_seq _ _ (H a) IH). Qed.
  Lemma st_mark n t : steady (fun r => mark_line r n t).
  Proof. exact (st_snip (fun _ s => aset s n (Some t))). Qed.
  Lemma st_node e t : steady (fun r => mark_node r e t).
  Proof. apply (st_heap (fun h r => do l <- node_line (hget h e); mark_line r l t)). intro h. apply st_res. intros n _. apply st_mark. Qed.
  Lemma st_comments e : steady (fun r => report_comments r e).
  Proof.
    apply (st_seq (fun r => mark_node r e INDICATE)); [apply st_node|].
    apply (st_heap (fun h r => match n_comments (hget h e) with Some cs => foldM report_leaf cs r | None => Raise KeyError end)). intro h.
    destruct (n_comments _) as [cs|]; [|apply st_raise]. apply st_fold. intro a. apply st_mark.
  Qed.
  Lemma st_tag e t : steady (fun r => do (s, _) <- tag_element (tfuel r) (r_heap r) e t (r_snip r); Ok (with_snip r s)).
  Proof.
    apply st_eq with (fun r => do s <- (fun h s => do (s, _) <- tag_element (S (length h)) h e t s; Ok s) (r_heap r) (r_snip r); Ok (with_snip r s)); [|exact (st_snip (fun h s => do (s, _) <- tag_element (S (length h)) h e t s; Ok s))].
    intro r. unfold tfuel. now destruct (tag_element _ _ _ _ _) as [[s sc]|].
  Qed.
  Lemma st_element e : steady (fun r => report_element r e).
  Proof. exact (st_seq _ _ (st_node e EMPHASIZE) (st_tag e INDICATE)). Qed.
  Lemma st_elements es : steady (fun r => report_elements r es).
  Proof. apply (st_fold report_element es). intro a. apply st_element. Qed.
  Lemma st_multiline e : steady (fun r => report_multiline_value r e).
  Proof.
    apply (st_heap (fun h r => match n_lines (hget h e) with Some ls => foldM report_leaf ls r | None => Raise KeyError end)). intro h.
    destruct (n_lines _) as [cs|]; [|apply st_raise]. apply st_fold. intro a. apply st_mark.
  Qed.
  Lemma st_missing p : steady (fun r => report_missing_element r p).
  Proof.
    apply (st_heap (fun h r => do r <- (if itype_eqb (n_type (hget h p)) DOCUMENT then Ok r else mark_line r (n_line (hget h p)) INDICATE);
      if itype_eqb (n_type (hget h p)) SECTION
      then do s <- tag_flat (tfuel r) (r_heap r) (n_elements (hget h p)) QUESTION (r_snip r) (Some (n_line (hget h p) + 1)); Ok (with_snip r s)
      else do (s, _) <- tag_element (tfuel r) (r_heap r) p QUESTION (r_snip r); Ok (with_snip r s))).
    intro h. apply (st_seq (fun r => if itype_eqb (n_type (hget h p)) DOCUMENT then Ok r else mark_line r (n_line (hget h p)) INDICATE)).
    - destruct (itype_eqb _ _); [apply st_id|apply st_mark].
    - destruct (itype_eqb _ _); [exact (st_snip (fun h' s => tag_flat (S (length h')) h' (n_elements (hget h p)) QUESTION s (Some (n_line (hget h p) + 1))))|apply st_tag].
  Qed.
End Retag.

(** Errors are made up of a check, a report and a rest, of which only the drawing of the report knows the reporter. *)
Definition form (c : ctx) (E : reporter_kind -> res eno_error) : Prop :=
  exists (pre : res unit) f (post : res (text * selection_t)), steady f /\
    forall rk, E rk = (do _ <- pre; do s <- report (retag rk c) f; do q <- post; Ok (MkErr (fst q) s (snd q))).

Lemma form_eq c E E' : (forall rk, E rk = E' rk) -> form c E' -> form c E.
Proof. intros H (pre & f & post & Hf & HE). exists pre, f, post. split; [assumption|]. intro rk. now rewrite H. Qed.
Lemma form_pre {A} c (x : res A) (E : A -> reporter_kind -> res eno_error) : (forall a, form c (E a)) -> form c (fun rk => do a <- x; E a rk).
Proof.
  intro H. destruct x as [a|e].
  - apply form_eq with (E a); [reflexivity|apply H].
  - exists (Raise e), Ok, (Raise e). split; [apply st_id|]. reflexivity.
Qed.
Lemma form_build c t f sel : steady f -> form c (fun rk => build t (report (retag rk c) f) sel).
Proof.
  intro Hf. apply form_eq with (fun rk => do t <- t; (fun rk => do s <- report (retag rk c) f; do sel <- sel; Ok (MkErr t s sel)) rk); [reflexivity|].
  apply form_pre. intro t0. exists (Ok tt), f, (do sel <- sel; Ok (t0, sel)). split; [assumption|]. intro rk. cbn [bind]. destruct (report _ _); [|reflexivity]. cbn [bind]. now destruct sel.
Qed.
Lemma form_fin c t f sel : steady f -> form c (fun rk => do s <- report (retag rk c) f; do sel <- sel; Ok (MkErr t s sel)).
Proof.
  intro Hf. exists (Ok tt), f, (do sel <- sel; Ok (t, sel)). split; [assumption|]. intro rk. cbn [bind]. destruct (report _ _); [|reflexivity]. cbn [bind]. now destruct sel.
Qed.

Definition missing_parts (c : ctx) (e : nat) : res (option (text * cursor_t)) :=
  let n := hget (c_heap c) e in
  match n_type n with
  | FIELD | EMPTY_ELEMENT | MULTILINE_FIELD_BEGIN =>
      do k <- key c e;
      do f <- (if opt_is (rget (n_ranges n) R_template) then cursor (node_ins n) R_template END
               else if opt_is (rget (n_ranges n) R_element_operator) then cursor (node_ins n) R_element_operator END
               else cursor (node_ins n) R_line END);
      Ok (Some (lc_missing_field_value (c_locale c) k, f))
  | FIELDSET_ENTRY =>
      do k <- key c e; do f <- cursor (node_ins n) R_entry_operator END; Ok (Some (lc_missing_fieldset_entry_value (c_locale c) k, f))
  | LIST_ITEM =>
      do p <- key_or (n_parent n); do k <- key c p; do f <- cursor (node_ins n) R_item_operator END; Ok (Some (lc_missing_list_item_value (c_locale c) k, f))
  | _ => Ok None
  end.

Theorem validation_form c v : form c (fun rk => validation_error (retag rk c) v).
Proof.
  destruct v as [m e|m e|m e|m e|e|k e q|e|m e|k es q|k e q]; cbn [validation_error].
  - exact (form_build c (Ok (lc_comment_error (c_locale c) m)) (fun r => report_comments r e) (select_comments c e) (st_comments e)).
  - exact (form_build c (Ok m) (fun r => report_element r e) (select_element c e) (st_element e)).
  - exact (form_build c (Ok (lc_key_error (c_locale c) m)) (fun r => report_line r e) (select_key c e) (st_node e EMPHASIZE)).
  - unfold v_value_error. cbv zeta. change (fun rk => c_heap (retag rk c)) with (fun rk : reporter_kind => c_heap c).
    apply form_eq with (fun rk => if opt_is (n_mirror (hget (c_heap c) e)) then
      do s <- report (retag rk c) (fun r => report_line r e); do sel <- select_key c e; Ok (MkErr (lc_value_error (c_locale c) m) s sel)
      else if itype_eqb (n_type (hget (c_heap c) e)) MULTILINE_FIELD_BEGIN then
        match n_lines (hget (c_heap c) e) with
        | Some ls => do s <- report (retag rk c) (fun r => report_multiline_value r e);
            do sel <- (do a <- match ls with x :: _ => Ok x | [] => Raise IndexError end; do b <- last_of ls; selection (leaf_ins a) R_line BEGIN (leaf_ins b) R_line END);
            Ok (MkErr (lc_value_error (c_locale c) m) s sel)
        | None => do s <- report (retag rk c) (fun r => report_element r e); do sel <- select_point (node_ins (hget (c_heap c) e)) R_line END; Ok (MkErr (lc_value_error (c_locale c) m) s sel)
        end
      else do s <- report (retag rk c) (fun r => report_element r e);
        do sel <- (let n := hget (c_heap c) e in let rs := n_ranges n in let nins i := node_ins (hget (c_heap c) i) in
           do f <- (if opt_is (rget rs R_value) then cursor (nins e) R_value BEGIN
                    else if opt_is (rget rs R_element_operator) then cursor (nins e) R_element_operator END
                    else if opt_is (rget rs R_entry_operator) then cursor (nins e) R_entry_operator END
                    else if itype_eqb (n_type n) LIST_ITEM then cursor (nins e) R_item_operator END
                    else cursor (nins e) R_line END);
           do to <- match n_conts n with
                    | Some cs => do l <- last_of cs; cursor (leaf_ins l) R_line END
                    | None => if opt_is (rget rs R_value) then cursor (nins e) R_value END
                              else cursor (nins e) R_line END
                    end;
           Ok (MkSel f to)); Ok (MkErr (lc_value_error (c_locale c) m) s sel)).
    { intro rk. reflexivity. }
    destruct (opt_is _); [apply form_fin, st_node|]. destruct (itype_eqb _ _); [destruct (n_lines _); [apply form_fin, st_multiline|apply form_fin, st_element]|apply form_fin, st_element].
  - exact (form_build c (Ok (lc_missing_comment (c_locale c))) (fun r => report_line r e) (select_point (node_ins (hget (c_heap c) e)) R_line BEGIN) (st_node e EMPHASIZE)).
  - exact (form_build c (Ok (keyed_message c q k)) (fun r => report_missing_element r e) (if itype_eqb (n_type (hget (c_heap c) e)) DOCUMENT then Ok DOCUMENT_BEGIN else select_point (node_ins (hget (c_heap c) e)) R_line END) (st_missing e)).
  - unfold v_missing_value. cbv zeta.
    apply form_eq with (fun rk => do mf <- missing_parts c e; (fun mf rk => do s <- report (retag rk c) (fun r => report_element r e);
      do to <- match n_type (hget (c_heap c) e), n_conts (hget (c_heap c) e) with
             | FIELD, Some cs => do l <- last_of cs; cursor (leaf_ins l) R_line END
             | _, _ => cursor (node_ins (hget (c_heap c) e)) R_line END
             end;
      match mf with None => Raise UnboundLocalError | Some (t, f) => Ok (MkErr t s (MkSel f to)) end) mf rk); [reflexivity|].
    apply form_pre. intro mf.
    exists (Ok tt), (fun r => report_element r e), (do to <- match n_type (hget (c_heap c) e), n_conts (hget (c_heap c) e) with
             | FIELD, Some cs => do l <- last_of cs; cursor (leaf_ins l) R_line END
             | _, _ => cursor (node_ins (hget (c_heap c) e)) R_line END
             end; match mf with None => Raise UnboundLocalError | Some (t, f) => Ok (t, MkSel f to) end).
    split; [apply st_element|]. intro rk. cbn [bind]. change (c_heap (retag rk c)) with (c_heap c). destruct (report _ _); [|reflexivity]. cbn [bind].
    destruct (match n_type (hget (c_heap c) e), n_conts (hget (c_heap c) e) with FIELD, Some cs => _ | _, _ => _ end); [|reflexivity]. cbn [bind]. now destruct mf as [[t0 f0]|].
  - exact (form_build c (Ok (match m with Some (x :: t) => x :: t | _ => lc_unexpected_element (c_locale c) end)) (fun r => report_element r e) (select_element c e) (st_element e)).
  - exact (form_build c (Ok (keyed_message c q k)) (fun r => report_elements r es) (match es with e :: _ => select_element c e | [] => Raise IndexError end) (st_elements es)).
  - exact (form_build c (Ok (keyed_message c q k)) (fun r => report_element r e) (select_element c e) (st_element e)).
Qed.

Lemma form_marks c f t sel : steady f -> form c (fun rk => do r <- new_reporter (retag rk c); do r <- f r; build t (snippet r) sel).
Proof.
  intro Hf. exists (Ok tt), (fun r => do r <- f r; do _ <- t; Ok r), (do t <- t; do sel <- sel; Ok (t, sel)). split.
  - apply st_seq; [assumption|]. apply (st_res t (fun _ => Ok)). intros _ _. apply st_id.
  - intro rk. cbn [bind]. unfold report. destruct (new_reporter _) as [r|]; [|reflexivity]. cbn [bind]. destruct (f r) as [r'|]; [|reflexivity]. cbn [bind].
    unfold build. destruct t; [|reflexivity]. cbn [bind]. destruct (snippet r'); [|reflexivity]. cbn [bind]. now destruct sel.
Qed.
Theorem parse_form c p : form c (fun rk => parse_error (retag rk c) p).
Proof.
  destruct p as [i|i|i|i|i s|e|i|i|i ch|a b d|i|i]; cbn [parse_error].
  - unfold invalid_line. apply (form_pre c (key_or (rget (l_ranges i) R_line)) (fun lr rk => _)). intro lr.
    apply form_eq with (fun rk => match match_at UNTERMINATED_ESCAPED_KEY (slice (c_input c) (fst lr) (snd lr)) 0 with
    | Some mo => unterminated_escaped_key (retag rk c) i (match mspan mo 1 with Some s => snd s | None => 0 end)
    | None => build (Ok (lc_invalid_line (c_locale c) (human (l_line i)))) (report (retag rk c) (fun r => report_leaf r i)) (select_line (leaf_ins i)) end); [reflexivity|].
    destruct (match_at _ _ _) as [mo|]; [|apply form_build, st_mark].
    exact (form_build c (Ok (lc_unterminated_escaped_key (c_locale c) (human (l_line i)))) (fun r => report_leaf r i)
      (do lr <- key_or (rget (l_ranges i) R_line); do to <- cursor (leaf_ins i) R_line END;
       Ok (MkSel (MkCursor (match mspan mo 1 with Some s => snd s | None => 0 end) (fst lr + match mspan mo 1 with Some s => snd s | None => 0 end) (l_line i)) to)) (st_mark _ _)).
  - exact (form_build c (Ok (lc_missing_element_for_continuation (c_locale c) (human (l_line i)))) (fun r => report_leaf r i) (select_line (leaf_ins i)) (st_mark _ _)).
  - exact (form_build c (Ok (lc_missing_list_for_list_item (c_locale c) (human (l_line i)))) (fun r => report_leaf r i) (select_line (leaf_ins i)) (st_mark _ _)).
  - exact (form_build c (Ok (lc_missing_fieldset_for_fieldset_entry (c_locale c) (human (l_line i)))) (fun r => report_leaf r i) (select_line (leaf_ins i)) (st_mark _ _)).
  - unfold section_hierarchy_layer_skip.
    apply form_eq with (fun rk => do r <- new_reporter (retag rk c); do r <- (fun r => do r <- report_leaf r i; if itype_eqb (n_type (hget (c_heap c) s)) DOCUMENT then Ok r else indicate_line r s) r;
      build (Ok (lc_section_hierarchy_layer_skip (c_locale c) (human (l_line i)))) (snippet r) (select_line (leaf_ins i))).
    { intro rk. destruct (new_reporter _) as [r|]; [|reflexivity]. cbn [bind]. now destruct (report_leaf r i). }
    apply form_marks. apply (st_seq (fun r => report_leaf r i)); [apply st_mark|]. destruct (itype_eqb _ _); [apply st_id|apply st_node].
  - unfold unterminated_multiline_field.
    apply form_eq with (fun rk => do r <- new_reporter (retag rk c); do r <- (fun r => do r <- report_element r e; foldM (fun r l => do el <- node_line (hget (c_heap c) e);
                     if Nat.ltb el (l_line l) then indicate_leaf r l else Ok r) (c_meta c) r) r;
      build (do k <- key c e; do l <- human_line c e; Ok (lc_unterminated_multiline_field (c_locale c) k l)) (snippet r) (select_line (node_ins (hget (c_heap c) e)))).
    { intro rk. destruct (new_reporter _) as [r|]; [|reflexivity]. cbn [bind]. now destruct (report_element r e). }
    apply form_marks. apply (st_seq (fun r => report_element r e)); [apply st_element|]. apply st_fold. intro l. apply st_res. intros el _. destruct (Nat.ltb _ _); [apply st_mark|apply st_id].
  - exact (form_build c (do l <- human_line c i; Ok (lc_missing_list_for_list_item (c_locale c) l)) (fun r => report_line r i) (select_line (node_ins (hget (c_heap c) i))) (st_node _ _)).
  - exact (form_build c (do l <- human_line c i; Ok (lc_missing_fieldset_for_fieldset_entry (c_locale c) l)) (fun r => report_line r i) (select_line (node_ins (hget (c_heap c) i))) (st_node _ _)).
  - unfold cyclic_dependency. cbv zeta. apply (form_pre c). intro lst. apply (form_pre c). intro fst. change (fun rk => c_heap (retag rk c)) with (fun rk : reporter_kind => c_heap c).
    apply form_eq with (fun rk => do copy <- (if opt_is (n_template (hget (c_heap c) lst)) then Ok lst else if opt_is (n_template (hget (c_heap c) fst)) then Ok fst else Raise UnboundLocalError);
      (fun rk => do r <- new_reporter (retag rk c); do r <- (fun r => do r <- report_line r copy; foldM (fun r e => if Nat.eqb e copy then Ok r else indicate_line r e) (skipn (index_of i ch) ch) r) r;
        build (do l <- human_line c copy; do t <- tpl c copy; Ok (lc_cyclic_dependency (c_locale c) l t)) (snippet r) (select_template c copy)) rk).
    { intro rk. change (c_heap (retag rk c)) with (c_heap c). destruct (if opt_is _ then _ else _) as [copy|]; [|reflexivity]. cbn [bind]. destruct (new_reporter _) as [r|]; [|reflexivity]. cbn [bind]. now destruct (report_line r copy). }
    apply form_pre. intro copy. apply form_marks. apply (st_seq (fun r => report_line r copy)); [apply st_node|]. apply st_fold. intro x. destruct (Nat.eqb _ _); [apply st_id|apply st_node].
  - apply (form_build c (do t <- tpl c a; Ok (lc_two_or_more_templates_found (c_locale c) t)) (fun r => do r <- report_line r a; do r <- question_line r b; question_line r d) (select_line (node_ins (hget (c_heap c) a)))). apply (st_seq (fun r => report_line r a)); [apply st_node|]. apply (st_seq (fun r => question_line r b)); apply st_node.
  - exact (form_build c (do l <- human_line c i; do t <- tpl c i; Ok (lc_non_section_element_not_found (c_locale c) l t)) (fun r => report_line r i) (select_line (node_ins (hget (c_heap c) i))) (st_node _ _)).
  - exact (form_build c (do l <- human_line c i; do t <- tpl c i; Ok (lc_section_not_found (c_locale c) l t)) (fun r => report_line r i) (select_line (node_ins (hget (c_heap c) i))) (st_node _ _)).
Qed.
