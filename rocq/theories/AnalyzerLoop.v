(** AnalyzerLoop: the loop preserves the structural invariant, always advances, never crashes
    and never runs out of the model's fuel. *)
From Verif Require Import Base Types Scan Analyzer TokenStep ScanProofs ScanFacts StepProofs HeapFacts AnalyzerInv.

(** * Auxiliary loops *)

Lemma find_nl_in_some r i e : find_nl_in r i = Some e ->
  exists n, e = i + n /\ n < length r /\ nth_error r n = Some nl /\ forallb not_nl (firstn n r) = true.
Proof.
  revert i e. induction r as [|c r IH]; intros i e; cbn [find_nl_in]; [discriminate|].
  unfold ceq. destruct (N.eqb_spec c nl) as [->|Hne].
  - intros [= <-]. exists 0. cbn. repeat split; [lia|lia].
  - intro H. apply IH in H as (n & -> & Hn & Hnth & Hf). exists (S n). cbn [length nth_error firstn forallb].
    repeat split; [lia|lia|assumption|]. rewrite Hf. unfold not_nl.
    apply N.eqb_neq in Hne. now rewrite Hne.
Qed.
Lemma find_nl_in_none r i : find_nl_in r i = None -> forallb not_nl r = true.
Proof.
  revert i. induction r as [|c r IH]; intros i; cbn [find_nl_in]; [reflexivity|].
  unfold ceq. destruct (N.eqb_spec c nl) as [->|Hne]; [discriminate|].
  intro H. cbn [forallb]. rewrite (IH _ H). unfold not_nl. apply N.eqb_neq in Hne. now rewrite Hne.
Qed.

Lemma find_nl_some inp i e : find_nl inp i = Some e -> i <= e < length inp.
Proof.
  unfold find_nl. intro H. apply find_nl_in_some in H as (n & -> & Hn & _).
  rewrite skipn_length in Hn. lia.
Qed.
Lemma find_nl_to_some inp i stop e : find_nl_to inp i stop = Some e -> i <= e < length inp /\ e < stop.
Proof.
  unfold find_nl_to, slice. intro H. apply find_nl_in_some in H as (n & -> & Hn & _).
  rewrite firstn_length, skipn_length in Hn. lia.
Qed.

Lemma tokenize_total inp fuel index line first :
  length inp < fuel + index -> 0 < fuel -> tokenize_error inp fuel index line first <> None.
Proof.
  revert index line first. induction fuel as [|f IH]; intros index line first H H0; [lia|].
  cbn [tokenize_error]. destruct (find_nl inp index) as [e|] eqn:E; [|discriminate].
  apply find_nl_some in E. specialize (IH (e + 1) (line + 1) false).
  destruct (tokenize_error inp f (e + 1) (line + 1) false) as [[ls lc]|]; [discriminate|].
  intros _. apply IH; [lia|lia|reflexivity].
Qed.
Lemma tokenize_cons inp fuel index line first ls lc :
  tokenize_error inp fuel index line first = Some (ls, lc) -> ls <> [].
Proof.
  destruct fuel; cbn [tokenize_error]; [discriminate|]. destruct (find_nl inp index).
  - destruct (tokenize_error inp fuel _ _ _) as [[? ?]|]; intros [= <- <-]; discriminate.
  - intros [= <- <-]. discriminate.
Qed.

Lemma fail_at_err inp st index line mk :
  exists i ls lc, tokenize_error inp (S (length inp)) index line true = Some (i :: ls, lc) /\
    fail_at inp st index line mk =
    SErr (mk i) (MkA (a_heap st) (a_meta st ++ i :: ls) (a_index st) (a_line st) (a_depth st)
                  (a_comments st) (a_lce st) (a_lnse st) (a_lsec st) (a_cs st) (a_cn st)) lc.
Proof.
  unfold fail_at. pose proof (tokenize_total inp (S (length inp)) index line true ltac:(lia) ltac:(lia)) as Ht.
  destruct (tokenize_error inp (S (length inp)) index line true) as [[ls lc]|] eqn:E; [|congruence].
  apply tokenize_cons in E. destruct ls as [|i ls]; [congruence|]. eauto.
Qed.

Lemma ml_total inp fuel index line stop :
  length inp < fuel + index -> 0 < fuel -> ml_lines inp fuel index line stop <> None.
Proof.
  revert index line. induction fuel as [|f IH]; intros index line H H0; [lia|].
  cbn [ml_lines]. destruct (find_nl_to inp index stop) as [e|] eqn:E; [|discriminate].
  apply find_nl_to_some in E. specialize (IH (e + 1) (line + 1)).
  destruct (ml_lines inp f (e + 1) (line + 1) stop) as [[ls lc]|]; [discriminate|].
  intros _. apply IH; [lia|lia|reflexivity].
Qed.

Lemma closing_line_ok inp op key i r o k e : at_pos inp i r -> closing_line op key i r = Some (o, k, e) ->
  sub inp o = op /\ sub inp k = key /\ i <= fst o /\ fst o <= snd o /\ snd o = fst o + length op /\
  snd o <= fst k /\ snd k = fst k + length key /\ snd k <= e /\ line_end inp e.
Proof.
  intros Hat. unfold closing_line.
  destruct (Regex.strip_prefix op (after_spaces r)) as [r1|] eqn:E1; [|discriminate].
  destruct (match r1 with c :: _ => _ | [] => _ end); [discriminate|].
  destruct (Regex.strip_prefix key (after_spaces r1)) as [r2|] eqn:E2; [|discriminate].
  destruct (forallb hspace (line_of r2)); [|discriminate]. intros [= <- <- <-].
  apply strip_prefix_app in E1. apply strip_prefix_app in E2.
  apply at_pos_spaces in Hat. rewrite E1 in Hat.
  destruct (at_pos_app _ _ _ _ Hat) as [Hat1 Hs1].
  pose proof (at_pos_spaces _ _ _ Hat1) as Hat2. rewrite E2 in Hat2.
  destruct (at_pos_app _ _ _ _ Hat2) as [Hat3 Hs2].
  pose proof (eol_le _ _ _ Hat3) as (He1 & He2 & He3).
  cbn [fst snd]. unfold sub. cbn [fst snd].
  repeat split; try assumption; try lia.
Qed.

Lemma find_closing_ok inp op key i r stop o k e : at_pos inp i r ->
  find_closing op key i r = Some (stop, (o, k, e)) ->
  i <= stop /\ nth_error inp stop = Some nl /\ closing_line op key (S stop) (skipn (S stop) inp) = Some (o, k, e).
Proof.
  revert i. induction r as [|c r IH]; intros i Hat; cbn [find_closing]; [discriminate|].
  destruct (at_pos_cons _ _ _ _ Hat) as [Hat' _].
  destruct (N.eqb_spec c nl) as [->|Hne].
  - destruct (closing_line op key (S i) r) as [x|] eqn:E.
    + intros [= <- ->]. repeat split; [lia| |].
      * destruct Hat as [Hs _]. rewrite <- (firstn_skipn i inp), Hs.
        rewrite nth_error_app2 by apply firstn_le_length.
        rewrite firstn_length_le by (apply skipn_length_lt in Hs; lia). now rewrite Nat.sub_diag.
      * destruct Hat' as [-> _]. assumption.
    + intro H. apply IH in H; [|assumption]. destruct H as (H & ?). split; [lia|assumption].
  - intro H. apply IH in H; [|assumption]. destruct H as (H & ?). split; [lia|assumption].
Qed.

(** * One step *)

Lemma field_node_facts inp st e k op v :
  let n := field_node inp st e k op v in
  fresh n /\ ncls n = CElem /\ n_parent n = Some (a_lsec st) /\ type_ok n /\ continuable n /\
  n_type n <> MULTILINE_FIELD_BEGIN.
Proof.
  unfold field_node, fresh, ncls, type_ok, plain_node, continuable. destruct v; cbn;
    repeat split; try discriminate; try reflexivity; left; discriminate.
Qed.
Lemma copy_node_facts inp st e k op t :
  let n := copy_node inp st e k op t in
  fresh n /\ ncls n = CElem /\ n_parent n = Some (a_lsec st) /\ type_ok n /\ ~ continuable n /\
  n_type n <> MULTILINE_FIELD_BEGIN.
Proof.
  unfold copy_node, fresh, ncls, type_ok, plain_node, continuable. cbn.
  repeat split; try discriminate.
Qed.
Lemma item_node_facts inp st e op v l :
  let n := item_node inp st e op v l in
  fresh n /\ n_type n = LIST_ITEM /\ n_parent n = Some l /\ type_ok n.
Proof. unfold item_node, fresh, type_ok, plain_node. cbn. repeat split; discriminate. Qed.
Lemma entry_node_facts inp st e k op v l :
  let n := entry_node inp st e k op v l in
  fresh n /\ n_type n = FIELDSET_ENTRY /\ n_parent n = Some l /\ type_ok n.
Proof. unfold entry_node, fresh, type_ok, plain_node. cbn. repeat split; discriminate. Qed.
Lemma section_node_facts inp st e op k t p :
  let n := section_node inp st e op k t p in
  fresh n /\ n_type n = SECTION /\ n_parent n = Some p /\ type_ok n /\ odepth n = width op.
Proof.
  unfold section_node, fresh, type_ok, plain_node, odepth, ncls. cbn.
  repeat split; discriminate.
Qed.
(** the multiline node with its end *)
Definition ended (le : leaf) (ls : option (list leaf)) (n : node) : node := set_end (Some le) (set_lines ls n).
Lemma multiline_node_facts inp st e op k (g : node -> node) :
  (g = (fun x => x) \/ exists le ls, g = ended le ls) ->
  let n := g (multiline_node inp st e op k) in
  fresh n /\ ncls n = CElem /\ n_parent n = Some (a_lsec st) /\ type_ok n /\ ~ continuable n /\
  n_type n = MULTILINE_FIELD_BEGIN.
Proof.
  intros [->|(le & ls & ->)]; unfold ended, multiline_node, fresh, ncls, type_ok, continuable; cbn;
    repeat split; try discriminate; auto.
Qed.
Lemma upd_last {A} (l : list A) x g : upd (l ++ [x]) (length l) g = l ++ [g x].
Proof. induction l as [|y l IH]; cbn; [reflexivity|]. now rewrite IH. Qed.
Lemma add_element_last h n p g : p < length h ->
  upd (add_element (h ++ [n]) p (length h)) (length h) g = add_element (h ++ [g n]) p (length h).
Proof.
  intro Hp. unfold add_element, hupd. rewrite (upd_app_l h [n]), (upd_app_l h [g n]) by assumption.
  set (F := fun n0 => set_elements (n_elements n0 ++ [length h]) n0).
  pose proof (upd_length h p F) as E. rewrite <- E at 1. apply upd_last.
Qed.

(** end of a step *)
Definition step_end (inp : text) (t : token) (e : nat) (e' : nat) : Prop :=
  match t with
  | TMultiline op k => exists stop o2 k2, find_closing (sub inp op) (sub inp k) e (skipn e inp) = Some (stop, (o2, k2, e'))
  | _ => e' = e
  end.

Lemma closing_bounds inp op k e stop o2 k2 e2 : e <= length inp ->
  find_closing op k e (skipn e inp) = Some (stop, (o2, k2, e2)) ->
  e <= stop /\ S stop <= e2 /\ line_end inp e2 /\ stop < length inp /\ nth_error inp stop = Some nl.
Proof.
  intros He H. apply (find_closing_ok inp) in H; [|split; [reflexivity|assumption]].
  destruct H as (H1 & H2 & H3).
  assert (stop < length inp) as Hlt by (apply nth_error_Some; congruence).
  apply (closing_line_ok inp) in H3; [|split; [reflexivity|lia]].
  destruct H3 as (_ & _ & G1 & G2 & _ & G3 & G4 & G5 & G6). repeat split; try assumption; try lia; apply G6.
Qed.

Theorem tstep_tok_inv inp st t e :
  AInv st -> a_index st <= length inp -> scan (a_index st) (skipn (a_index st) inp) = Some (t, e) ->
  match tstep_tok inp st t e with
  | SOk st' => AInv st' /\ exists e', step_end inp t e e' /\ a_index st' = S e' /\ e <= e' <= length inp
  | SErr _ st' _ => SInv (a_heap st') /\ DInv (a_heap st')
  | SCrash | SFuel => False
  end.
Proof.
  intros HI Hix Hsc.
  destruct (scan_ok inp _ _ _ Hix Hsc) as (Hie & (Hle & Heol) & Htok).
  pose proof HI as HI'. unfold AInv in HI'. pose proof (i_s _ _ _ _ _ HI') as HS. pose proof (i_d _ _ _ _ _ HI') as HD.
  assert (forall i l mk, match fail_at inp st i l mk with
    | SOk st' => AInv st' /\ exists e', step_end inp t e e' /\ a_index st' = S e' /\ e <= e' <= length inp
    | SErr _ st' _ => SInv (a_heap st') /\ DInv (a_heap st')
    | SCrash | SFuel => False
    end) as Hfail.
  { intros i l mk. destruct (fail_at_err inp st i l mk) as (x & ls & lc & _ & ->). cbn. auto. }
  destruct t as [p|op v|op v|op v|op v|op k|op k tp|k op v|k op v|k op tp]; cbn [tstep_tok step_end].
  - split; [exact HI|]. exists e. cbn. auto.
  - destruct (a_lce st) as [c|] eqn:El; [|apply Hfail]. split; [|exists e; cbn; auto].
    unfold AInv. cbn. apply Inv_cont. exact HI'.
  - destruct (a_lce st) as [c|] eqn:El; [|apply Hfail]. split; [|exists e; cbn; auto].
    unfold AInv. cbn. apply Inv_cont. exact HI'.
  - split; [exact HI|]. exists e. cbn. auto.
  - destruct (a_lnse st) as [l|] eqn:El; [|apply Hfail].
    destruct (takes_items (n_type (hget (a_heap st) l))) eqn:Et; [|apply Hfail].
    split; [|exists e; cbn; auto]. unfold AInv. cbn.
    destruct (item_node_facts inp st e op v l) as (F1 & F2 & F3 & F4).
    eapply Inv_new_item; eauto.
  - assert (a_lsec st < length (a_heap st)) as Hlt by apply HI'.
    destruct (find_closing (sub inp op) (sub inp k) e (skipn e inp)) as [[stop [[o2 k2] e2]]|] eqn:Ec.
    + apply closing_bounds in Ec as Hb; [|assumption].
      destruct (if Nat.eqb stop e then Some (None, S (a_line st), S e)
        else match ml_lines inp (S (length inp)) (S e) (S (a_line st)) stop with
             | Some (ls, line3) => Some (Some ls, line3, S stop) | None => None end)
        as [[[lines line3] index3]|] eqn:Em.
      * cbn. split; [|exists e2; repeat split; eauto; try (apply Hb); lia].
        unfold AInv. cbn -[add_element]. unfold hupd. rewrite add_element_last by assumption.
        match goal with |- context [set_end (Some ?l) _] => set (le := l) end.
        change (set_end (Some le) (set_lines lines (multiline_node inp st e op k)))
          with (ended le lines (multiline_node inp st e op k)).
        destruct (multiline_node_facts inp st e op k (ended le lines)) as (F1 & F2 & F3 & F4 & F5 & F6); [eauto|].
        eapply Inv_new_element; eauto.
      * exfalso. destruct (Nat.eqb stop e); [discriminate|].
        pose proof (ml_total inp (S (length inp)) (S e) (S (a_line st)) stop ltac:(lia) ltac:(lia)) as Ht.
        destruct (ml_lines _ _ _ _ _) as [[? ?]|]; congruence.
    + match goal with |- context [fail_at inp ?s ?i ?l ?mk] =>
        destruct (fail_at_err inp s i l mk) as (x & ls & lc & _ & ->) end.
      cbn -[add_element].
      destruct (multiline_node_facts inp st e op k (fun x => x)) as (F1 & F2 & F3 & F4 & F5 & F6); [auto|].
      assert (Inv (add_element (a_heap st ++ [multiline_node inp st e op k]) (a_lsec st) (length (a_heap st)))
                  (a_lsec st) (a_depth st) None None) as [G1 G2 _ _ _ _ _ _ _]
        by (eapply Inv_new_element; eauto).
      auto.
  - fold (width op).
    destruct Htok as (Hop & _). unfold op_ok, span_in in Hop.
    destruct (le_lt_dec (width op) (a_depth st + 1)) as [Hd|Hd].
    + destruct (section_parent_spec st (width op) HI) as (p & Hp & Hcl & Hod & Hsl & Hlt);
        [unfold width; lia|assumption|].
      rewrite Hp.
      destruct (section_node_facts inp st e op k tp p) as (F1 & F2 & F3 & F4 & F5).
      assert (Inv (add_element (a_heap st ++ [section_node inp st e op k tp p]) p (length (a_heap st)))
                  (length (a_heap st)) (width op) None None) as HN.
      { rewrite <- F5. eapply Inv_new_section; eauto. }
      destruct tp as [[o ts]|].
      * destruct (mark_deep _ _ _) as [h2|] eqn:Em.
        -- split; [|exists e; cbn; auto]. unfold AInv. cbn.
           eapply Inv_core; [|exact HN]. symmetry. now apply mark_deep_core in Em.
        -- revert Em. apply mark_deep_total.
           ++ apply HN.
           ++ unfold add_element, hupd. rewrite upd_length, app_length. cbn. lia.
           ++ unfold add_element, hupd. rewrite hget_upd_eq by (rewrite app_length; cbn; lia).
              rewrite hget_app_l by assumption. exact Hsl.
           ++ lia.
      * split; [|exists e; cbn; auto]. exact HN.
    + apply section_parent_skip in Hd. rewrite Hd. apply Hfail.
  - split; [|exists e; cbn; auto]. unfold AInv. cbn -[add_element].
    destruct (field_node_facts inp st e k op v) as (F1 & F2 & F3 & F4 & F5 & F6).
    eapply Inv_new_element; eauto.
  - destruct (a_lnse st) as [l|] eqn:El; [|apply Hfail].
    destruct (takes_entries (n_type (hget (a_heap st) l))) eqn:Et; [|apply Hfail].
    split; [|exists e; cbn; auto]. unfold AInv. cbn.
    destruct (entry_node_facts inp st e k op v l) as (F1 & F2 & F3 & F4).
    eapply Inv_new_entry; eauto.
  - split; [|exists e; cbn; auto]. unfold AInv. cbn -[add_element].
    destruct (copy_node_facts inp st e k op tp) as (F1 & F2 & F3 & F4 & F5 & F6).
    eapply Inv_new_element; eauto.
Qed.

Theorem step_inv inp st : AInv st -> a_index st <= length inp ->
  match step inp st with
  | SOk st' => AInv st' /\ a_index st < a_index st' <= S (length inp)
  | SErr _ st' _ => SInv (a_heap st') /\ DInv (a_heap st')
  | SCrash | SFuel => False
  end.
Proof.
  intros HI Hix. rewrite step_tstep by assumption. unfold tstep.
  destruct (scan _ _) as [[t e]|] eqn:Hs.
  - pose proof (tstep_tok_inv inp st t e HI Hix Hs) as H.
    destruct (scan_ok inp _ _ _ Hix Hs) as (Hie & _ & _).
    destruct (tstep_tok inp st t e); auto. destruct H as (H & e' & _ & H2 & H3). split; [assumption|lia].
  - destruct (fail_at_err inp st (a_index st) (a_line st) PInvalidLine) as (x & ls & lc & _ & ->). cbn.
    split; apply HI.
Qed.

(** * The loop *)

Lemma init_inv : AInv init_ast.
Proof.
  unfold AInv, init_ast. cbn. constructor; cbn.
  - constructor; cbn; try reflexivity; try lia.
  - constructor; intros [|p] Hp; cbn in *; try lia; try reflexivity.
    unfold type_ok, plain_node. cbn. repeat split; discriminate.
  - lia.
  - now left.
  - lia.
  - reflexivity.
  - intros k a Ha j Hj. lia.
  - unfold continuable. cbn. auto.
  - now left.
Qed.

Lemma reach_inv inp st : reach inp st -> AInv st /\ a_index st <= S (length inp).
Proof.
  induction 1 as [|st st' H [IH Hi] Hlt Hs].
  - split; [apply init_inv|cbn; lia].
  - pose proof (step_inv inp st IH ltac:(lia)) as H'. rewrite Hs in H'. destruct H' as [H1 H2].
    split; [assumption|lia].
Qed.

(** every outcome of the loop is an outcome of a step from a reachable state *)
Lemma loop_reach inp fuel st : reach inp st -> length inp <= fuel + a_index st ->
  match loop inp fuel st with
  | SOk st' => reach inp st' /\ length inp <= a_index st'
  | SErr e st' lc => exists st0, reach inp st0 /\ a_index st0 < length inp /\ step inp st0 = SErr e st' lc
  | SCrash | SFuel => False
  end.
Proof.
  revert st. induction fuel as [|f IH]; intros st Hr Hf; cbn [loop];
    (destruct (Nat.ltb_spec (a_index st) (length inp)) as [Hlt|Hge]; [|split; assumption]).
  - lia.
  - destruct (reach_inv inp st Hr) as [HI _].
    pose proof (step_inv inp st HI ltac:(lia)) as H.
    destruct (step inp st) as [st'|e st' lc| |] eqn:Es; try contradiction.
    + apply IH; [|lia]. eapply reach_step; eauto.
    + eauto.
Qed.

(** the outcome of analysis *)
Theorem analyze_reach inp :
  match analyze inp with
  | AOk st lc =>
      exists st0, reach inp st0 /\ length inp <= a_index st0 /\
        st = MkA (a_heap st0) (flush (a_meta st0) (a_comments st0)) (a_index st0) (a_line st0)
                 (a_depth st0) None (a_lce st0) (a_lnse st0) (a_lsec st0) (a_cs st0) (a_cn st0) /\
        lc = (if N.eqb (last inp 0%N) nl then S (a_line st0) else match inp with [] => 1 | _ => a_line st0 end)
  | AErr e st lc =>
      exists st0, reach inp st0 /\ a_index st0 < length inp /\ step inp st0 = SErr e st lc
  | ACrash | AFuel => False
  end.
Proof.
  unfold analyze. destruct inp as [|c inp'] eqn:E.
  - exists init_ast. repeat split; [constructor|cbn; lia].
  - rewrite <- E. assert (reach inp init_ast) as Hr by constructor.
    pose proof (loop_reach inp (length inp) init_ast Hr ltac:(cbn; lia)) as H.
    destruct (loop inp (length inp) init_ast) as [st|e st lc| |]; try contradiction.
    + destruct H as [H1 H2]. exists st. repeat split; try assumption. subst inp.
      destruct (N.eqb _ _); [lia|reflexivity].
    + exact H.
Qed.
