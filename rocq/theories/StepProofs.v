(** StepProofs: [Analyzer.step] is [TokenStep.tstep]. *)
From Verif Require Import Base Regex RegexProofs Grammar Scan ScanProofs Types Analyzer TokenStep ScanFacts.

Lemma clean_visible t : clean t -> visible_start t.
Proof.
  intros (H1 & H2 & _). destruct t as [|c t]; [congruence|]. cbn in *. unfold hspace. now rewrite H2.
Qed.

Lemma op_visible inp lo hi c op : hspace c = false -> op_ok inp lo hi c op -> visible_start (sub inp op).
Proof.
  intros Hc [(H1 & H2 & H3) H]. rewrite H. destruct (snd op - fst op) eqn:E; [lia|]. exact Hc.
Qed.

Lemma mspan_mk i e g n : mspan (MkMatch i e g) n = gget g n.
Proof. reflexivity. Qed.

Lemma upd_ext {A} (l : list A) i f g :
  (forall x, nth_error l i = Some x -> f x = g x) -> upd l i f = upd l i g.
Proof.
  revert i. induction l as [|y l IH]; intros [|i] H; cbn [upd]; try reflexivity.
  - f_equal. now apply H.
  - f_equal. apply IH. exact H.
Qed.

Lemma hget_not_document h i : n_type (hget h i) <> DOCUMENT -> i < length h.
Proof.
  intro H. destruct (le_lt_dec (length h) i) as [Hl|]; [|assumption].
  unfold hget in H. rewrite nth_overflow in H by assumption. now elim H.
Qed.

Lemma nth_error_hget h i : i < length h -> nth_error h i = Some (hget h i).
Proof. intro H. unfold hget. now apply nth_error_nth'. Qed.

Theorem step_tstep inp st : a_index st <= length inp -> step inp st = tstep inp st.
Proof.
  intro Hi. unfold step, tstep.
  pose proof (match_scan inp (a_index st)) as Hm.
  destruct (scan (a_index st) (skipn (a_index st) inp)) as [[t e]|] eqn:Escan; cbn [option_map] in Hm.
  2:{ pose proof (search_not_at _ _ _ Hm) as Hs. destruct (search REGEX inp (a_index st)) as [mo|]; [|reflexivity].
      apply Nat.eqb_neq in Hs. rewrite Hs. reflexivity. }
  rewrite (search_at _ _ _ _ Hm). cbn [m_start]. rewrite Nat.eqb_refl. cbn [negb m_end].
  destruct (scan_ok inp _ _ _ Hi Escan) as (He & Hle & Htok).
  cbn zeta. rewrite !Nat.add_1_r.
  destruct t as [p|op v|op v|op v|op v|op k|op k t|k op v|k op v|k op t]; unfold tstep_tok; cbn zeta.
  - reflexivity.
  - destruct v as [[]|]; reflexivity.
  - destruct v as [[]|]; reflexivity.
  - destruct v as [[]|]; reflexivity.
  - destruct v as [[]|]; cbn; destruct (a_lnse st) as [l|]; try reflexivity;
      destruct (n_type (hget (a_heap st) l)) eqn:Et; cbn [takes_items]; try reflexivity;
      f_equal; f_equal; apply upd_ext; intros x Hx;
      (rewrite nth_error_app1, nth_error_hget in Hx by (apply hget_not_document; congruence));
      injection Hx as <-; unfold add_item; now rewrite Et.
  - destruct op as [ob oe], k as [kb ke]. unfold mgroup, span0, mspan. cbn [encode gget m_groups m_end].
    unfold MULTILINE_FIELD_OPERATOR_INDEX, MULTILINE_FIELD_KEY_INDEX. cbn [opt_is gget Nat.eqb].
    destruct Htok as (H1 & H2 & H3 & H4).
    assert (visible_start (slice inp ob oe)) as V1 by exact (op_visible inp _ _ c_dash (ob, oe) eq_refl H1).
    assert (visible_start (slice inp kb ke)) as V2 by (apply clean_visible in H4; exact H4).
    set (ml := ml_lines inp (S (length inp))).
    cbn -[ml]. rewrite search_closing by assumption.
    change (sub inp (ob, oe)) with (slice inp ob oe). change (sub inp (kb, ke)) with (slice inp kb ke).
    destruct (find_closing _ _ _ _) as [[stop [[o2 k2] e2]]|]; [|reflexivity].
    cbn [option_map]. cbn -[ml]. rewrite Nat.sub_0_r, ?Nat.add_1_r.
    destruct (Nat.eqb stop e).
    + rewrite ?Nat.add_1_r. reflexivity.
    + destruct (ml _ _ _) as [[ls l3]|]; rewrite ?Nat.add_1_r; reflexivity.
  - destruct op as [ob oe], k as [[kb ke]|[bb be] [kb ke] [xb xe]], t as [[[o1 o2] [t1 t2]]|]; cbn -[mark_deep];
      unfold section_parent; rewrite ?Nat.add_1_r;
      match goal with |- match ?x with _ => _ end = match ?y with _ => _ end => change y with x; destruct x as [[q|]|] end;
      try reflexivity;
      cbn -[mark_deep]; match goal with |- match (match ?x with _ => _ end) with _ => _ end = match ?y with _ => _ end =>
        change y with x; destruct x end; reflexivity.
  - destruct k as [[]|[] [] []], v as [[]|]; reflexivity.
  - destruct k as [[]|[] [] []], v as [[]|]; cbn; destruct (a_lnse st) as [l|]; try reflexivity;
      destruct (n_type (hget (a_heap st) l)) eqn:Et; cbn [takes_entries]; try reflexivity;
      f_equal; f_equal; apply upd_ext; intros x Hx;
      (rewrite nth_error_app1, nth_error_hget in Hx by (apply hget_not_document; congruence));
      injection Hx as <-; unfold add_entry; now rewrite Et.
  - destruct k as [[]|[] [] []], op, t; reflexivity.
Qed.
