(** StepChange: what a successful step of the analysis changes, as a relation; the invariants
    about text, ranges and lines are proved over it. *)
From Verif Require Import Base Types Scan Analyzer TokenStep ScanProofs ScanFacts StepProofs HeapFacts AnalyzerInv AnalyzerLoop.

(** the value lines of a multiline field: empty, or the lines between opening and closing line *)
Definition ml_part (inp : text) (e line stop : nat) : option (option (list leaf) * nat * nat) :=
  if Nat.eqb stop e then Some (None, S line, S e)
  else match ml_lines inp (S (length inp)) (S e) (S line) stop with
       | Some (ls, line3) => Some (Some ls, line3, S stop)
       | None => None
       end.
Definition end_leaf (line index e2 : nat) (o2 k2 : span) : leaf :=
  MkLeaf (Some MULTILINE_FIELD_END) line
         [(R_key, k2); (R_line, (index, e2)); (R_multiline_field_operator, o2)] None false.

(** node [n], child of [p], is what token [t] (ending at [e]) creates; the next index is [S e'],
    the next line [line'] *)
Inductive created (inp : text) (st : ast) (e : nat) : token -> node -> nat -> nat -> nat -> Prop :=
| cr_field k op v :
    created inp st e (TField k op v) (field_node inp st e k op v) (a_lsec st) e (S (a_line st))
| cr_item op v l :
    a_lnse st = Some l -> takes_items (n_type (hget (a_heap st) l)) = true ->
    created inp st e (TItem op v) (item_node inp st e op v l) l e (S (a_line st))
| cr_entry k op v l :
    a_lnse st = Some l -> takes_entries (n_type (hget (a_heap st) l)) = true ->
    created inp st e (TEntry k op v) (entry_node inp st e k op v l) l e (S (a_line st))
| cr_section op k t p :
    section_parent st (width op) = Some (Some p) ->
    created inp st e (TSection op k t) (section_node inp st e op k t p) p e (S (a_line st))
| cr_multi op k stop o2 k2 e2 lines line3 index3 :
    find_closing (sub inp op) (sub inp k) e (skipn e inp) = Some (stop, (o2, k2, e2)) ->
    ml_part inp e (a_line st) stop = Some (lines, line3, index3) ->
    created inp st e (TMultiline op k)
            (ended (end_leaf line3 index3 e2 o2 k2) lines (multiline_node inp st e op k))
            (a_lsec st) e2 (S line3)
| cr_copy k op t :
    created inp st e (TCopy k op t) (copy_node inp st e k op t) (a_lsec st) e (S (a_line st)).

Definition leaves (n : node) : list leaf :=
  olist (n_comments n) ++ olist (n_conts n) ++ olist (n_lines n) ++
  match n_end n with Some l => [l] | None => [] end.

(** the update of the parent: registers the child, keeps all texts *)
Definition registering (g : node -> node) : Prop :=
  forall x, stat (g x) = stat x /\ n_conts (g x) = n_conts x /\ n_lines (g x) = n_lines x /\ n_end (g x) = n_end x /\
    (n_type (g x) = MULTILINE_FIELD_BEGIN -> n_type x = MULTILINE_FIELD_BEGIN).

Inductive is_cont (inp : text) (st : ast) (e : nat) : token -> leaf -> Prop :=
| ic_direct op v : is_cont inp st e (TDirect op v) (cont_leaf inp st e op v false)
| ic_spaced op v : is_cont inp st e (TSpaced op v) (cont_leaf inp st e op v true).

Inductive change (inp : text) (st : ast) (e : nat) (t : token) (st' : ast) : Prop :=
| ch_new n p g e' :
    created inp st e t n p e' (a_line st') -> p < length (a_heap st) -> registering g ->
    map core (a_heap st') = map core (app_upd (a_heap st) n p g) ->
    a_meta st' = a_meta st -> a_comments st' = None -> a_index st' = S e' ->
    (e <= e' /\ line_end inp e') ->
    change inp st e t st'
| ch_cont c lf :
    is_cont inp st e t lf -> a_lce st = Some c ->
    a_heap st' = hupd (a_heap st) c (cont_upd lf) ->
    a_meta st' = flush (a_meta st) (a_comments st) -> a_comments st' = None ->
    a_index st' = S e -> a_line st' = S (a_line st) ->
    change inp st e t st'
| ch_comment op v :
    t = TComment op v -> a_heap st' = a_heap st -> a_meta st' = a_meta st ->
    a_comments st' = Some (olist (a_comments st) ++ [comment_leaf inp st e op v]) ->
    a_index st' = S e -> a_line st' = S (a_line st) ->
    change inp st e t st'
| ch_blank p :
    t = TEmpty p -> a_heap st' = a_heap st ->
    a_meta st' = flush (a_meta st) (a_comments st) -> a_comments st' = None ->
    a_index st' = S e -> a_line st' = S (a_line st) ->
    change inp st e t st'.

Lemma registering_element id : registering (fun n => set_elements (n_elements n ++ [id]) n).
Proof. intro x. repeat split; auto. Qed.
Lemma registering_item id : registering (add_item id).
Proof.
  intro x. split; [apply benign_add_item|]. unfold add_item. destruct (n_type x) eqn:E; cbn; rewrite ?E; repeat split; auto; discriminate.
Qed.
Lemma registering_entry id : registering (add_entry id).
Proof.
  intro x. split; [apply benign_add_entry|]. unfold add_entry. destruct (n_type x) eqn:E; cbn; rewrite ?E; repeat split; auto; discriminate.
Qed.
Lemma registering_benign g : registering g -> benign g.
Proof. intros H x. apply H. Qed.

Theorem step_change inp st st' :
  AInv st -> a_index st <= length inp -> step inp st = SOk st' ->
  exists t e, scan (a_index st) (skipn (a_index st) inp) = Some (t, e) /\ change inp st e t st'.
Proof.
  intros HI Hix. rewrite step_tstep by assumption. unfold tstep.
  destruct (scan _ _) as [[t e]|] eqn:Hs;
    [|destruct (fail_at_err inp st (a_index st) (a_line st) PInvalidLine) as (x & ls & lc & _ & ->); discriminate].
  intro H. exists t, e. split; [reflexivity|].
  destruct (scan_ok inp _ _ _ Hix Hs) as (Hie & Hle & Htok).
  assert (a_lsec st < length (a_heap st)) as Hsec by apply HI.
  assert (e <= e /\ line_end inp e) as Hee by (split; [lia|assumption]).
  assert (forall i l mk, fail_at inp st i l mk = SOk st' -> False) as Hfail.
  { intros i l mk. destruct (fail_at_err inp st i l mk) as (x & ls & lc & _ & ->). discriminate. }
  destruct t as [p|op v|op v|op v|op v|op k|op k tp|k op v|k op v|k op tp]; cbn [tstep_tok] in H.
  - injection H as <-. eapply ch_blank; reflexivity.
  - destruct (a_lce st) as [c|] eqn:El; [|now apply Hfail in H]. injection H as <-.
    eapply ch_cont; try reflexivity; [constructor|assumption].
  - destruct (a_lce st) as [c|] eqn:El; [|now apply Hfail in H]. injection H as <-.
    eapply ch_cont; try reflexivity; [constructor|assumption].
  - injection H as <-. eapply ch_comment; try reflexivity. cbn. destruct (a_comments st); reflexivity.
  - destruct (a_lnse st) as [l|] eqn:El; [|now apply Hfail in H].
    destruct (takes_items (n_type (hget (a_heap st) l))) eqn:Et; [|now apply Hfail in H].
    injection H as <-. eapply ch_new with (p := l); try reflexivity.
    + cbn. now apply cr_item.
    + pose proof (i_lnse _ _ _ _ _ HI) as Hl. rewrite El in Hl. apply Hl.
    + apply registering_item.
    + assumption.
  - destruct (find_closing (sub inp op) (sub inp k) e (skipn e inp)) as [[stop [[o2 k2] e2]]|] eqn:Ec.
    + fold (ml_part inp e (a_line st) stop) in H.
      destruct (ml_part inp e (a_line st) stop) as [[[lines line3] index3]|] eqn:Em; [|discriminate].
      injection H as <-. unfold hupd. rewrite add_element_last by assumption.
      eapply ch_new; try reflexivity.
      * cbn. eapply cr_multi; eassumption.
      * assumption.
      * apply registering_element.
      * apply closing_bounds in Ec; [|apply Hle]. split; [lia|apply Ec].
    + match type of H with fail_at inp ?s ?i ?l ?mk = _ =>
        destruct (fail_at_err inp s i l mk) as (x & ls & lc & _ & E) end.
      rewrite E in H. discriminate.
  - fold (width op) in H. destruct (section_parent st (width op)) as [[p|]|] eqn:Ep;
      [|discriminate|now apply Hfail in H].
    assert (p < length (a_heap st)) as Hp.
    { destruct Htok as (Hop & _). unfold op_ok, span_in in Hop.
      destruct (section_parent_spec st (width op) HI) as (q & Hq & _ & _ & _ & Hlt).
      - unfold width. lia.
      - destruct (le_lt_dec (width op) (a_depth st + 1)) as [|Hgt]; [assumption|].
        apply section_parent_skip in Hgt. congruence.
      - congruence. }
    destruct tp as [[o ts]|].
    + destruct (mark_deep _ _ _) as [h2|] eqn:Em; [|discriminate]. injection H as <-.
      eapply ch_new; try reflexivity.
      * cbn [a_line]. eapply cr_section. eassumption.
      * assumption.
      * apply registering_element.
      * cbn. apply mark_deep_core in Em. rewrite Em. reflexivity.
      * assumption.
    + injection H as <-. eapply ch_new; try reflexivity.
      * cbn [a_line]. eapply cr_section. eassumption.
      * assumption.
      * apply registering_element.
      * assumption.
  - injection H as <-. eapply ch_new; try reflexivity.
    + cbn. apply cr_field.
    + assumption.
    + apply registering_element.
    + assumption.
  - destruct (a_lnse st) as [l|] eqn:El; [|now apply Hfail in H].
    destruct (takes_entries (n_type (hget (a_heap st) l))) eqn:Et; [|now apply Hfail in H].
    injection H as <-. eapply ch_new with (p := l); try reflexivity.
    + cbn. now apply cr_entry.
    + pose proof (i_lnse _ _ _ _ _ HI) as Hl. rewrite El in Hl. apply Hl.
    + apply registering_entry.
    + assumption.
  - injection H as <-. eapply ch_new; try reflexivity.
    + cbn. apply cr_copy.
    + assumption.
    + apply registering_element.
    + assumption.
Qed.
