(** AnalyzerBounds: line numbers stay below the line count; the states analysis stops in. *)
From Verif Require Import Base Types Scan Analyzer TokenStep ScanProofs ScanFacts StepProofs HeapFacts AnalyzerInv
  AnalyzerLoop StepChange SpecText AnalyzerText.

(** what hangs on an instruction lies before line [b], and lists of lines are not empty *)
Definition node_bound (b : nat) (n : node) : Prop :=
  n_line n < b /\ Forall (fun l => l_line l < b) (hanging n) /\
  (n_type n = MULTILINE_FIELD_BEGIN -> n_end n <> None) /\ n_lines n <> Some [] /\ n_comments n <> Some [].

Record BInv (st : ast) : Prop := {
  b_heap : Forall (node_bound (a_line st)) (tl (a_heap st));
  b_meta : Forall (fun l => l_line l < a_line st) (a_meta st);
  b_comments : Forall (fun l => l_line l < a_line st) (olist (a_comments st));
  b_some : a_comments st <> Some []
}.

Lemma below_le b b' (l : list leaf) : b <= b' -> Forall (fun l => l_line l < b) l -> Forall (fun l => l_line l < b') l.
Proof. intro Hb. apply Forall_impl. intros. lia. Qed.
Lemma node_bound_le b b' n : b <= b' -> node_bound b n -> node_bound b' n.
Proof.
  intros Hb (H1 & H2 & H3 & H4 & H5). repeat split; auto; [lia|]. eapply below_le; eassumption.
Qed.

Lemma node_bound_core b x y : core x = core y -> node_bound b x -> node_bound b y.
Proof.
  unfold core, dyn, node_bound, hanging. intro H.
  assert (stat x = stat y) as Hs by congruence.
  assert (n_conts x = n_conts y) as -> by congruence. assert (n_lines x = n_lines y) as -> by congruence.
  assert (n_end x = n_end y) as -> by congruence. assert (n_type x = n_type y) as -> by congruence.
  rewrite (stat_comments _ _ Hs). assert (n_line x = n_line y) as -> by (unfold stat in Hs; congruence). auto.
Qed.

Lemma ml_bound inp e line stop lines line3 index3 :
  ml_part inp e line stop = Some (lines, line3, index3) ->
  e <= stop -> stop < length inp -> nth_error inp stop = Some nl -> line_end inp e ->
  S line <= line3 /\ Forall (fun l => l_line l < line3) (olist lines) /\ lines <> Some [].
Proof.
  intros H H1 H2 H3 H4. destruct (ml_part_spec _ _ _ _ _ _ _ H H1 H2 H3 H4) as (_ & _ & M3 & _ & M5 & _ & M6).
  split; [lia|]. split; [|assumption]. apply Forall_forall. intros l Hl. apply In_nth_error in Hl as [j Hj].
  pose proof (nth_error_Some (olist lines) j) as Hlt. rewrite Hj in Hlt. specialize (M5 _ _ Hj).
  assert (j < length (olist lines)) by (apply Hlt; discriminate). lia.
Qed.

Lemma below_flush b meta c : Forall (fun l => l_line l < b) meta -> Forall (fun l => l_line l < b) (olist c) ->
  Forall (fun l => l_line l < b) (flush meta c).
Proof. intros H1 H2. destruct c; cbn in *; [now apply Forall_app|assumption]. Qed.

Lemma bare_bound b n : n_line n < b -> Forall (fun l => l_line l < b) (olist (n_comments n)) -> n_comments n <> Some [] ->
  n_conts n = None -> n_lines n = None -> n_end n = None -> n_type n <> MULTILINE_FIELD_BEGIN -> node_bound b n.
Proof.
  intros H1 H2 H3 H4 H5 H6 H7. unfold node_bound, hanging. rewrite H4, H5, H6. repeat split; auto; try congruence.
  cbn. rewrite app_nil_r. exact H2.
Qed.

Lemma created_bound inp st e t n p e' l' :
  AInv st -> a_index st <= length inp -> scan (a_index st) (skipn (a_index st) inp) = Some (t, e) ->
  created inp st e t n p e' l' ->
  Forall (fun l => l_line l < a_line st) (olist (a_comments st)) -> a_comments st <> Some [] ->
  node_bound l' n /\ a_line st < l'.
Proof.
  intros HI Hix Hsc Hcr Hc Hne. destruct (scan_ok inp _ _ _ Hix Hsc) as (Hie & Hle & Htok).
  assert (Forall (fun l => l_line l < S (a_line st)) (olist (a_comments st))) as Hc' by (eapply below_le; [|eassumption]; lia).
  destruct Hcr; try (split; [|lia]; apply bare_bound; cbn; auto; try lia; try discriminate).
  - destruct v; discriminate.
  - pose proof (closing_bounds _ _ _ _ _ _ _ _ (proj1 Hle) H) as (B1 & B2 & B3 & B4 & B5).
    destruct (ml_bound _ _ _ _ _ _ _ H0 B1 B4 B5 Hle) as (L1 & L2 & L3). split; [|lia].
    unfold node_bound, hanging. cbn. repeat split; auto; try discriminate; try lia.
    apply Forall_app. split; [eapply below_le; [|exact Hc]; lia|]. apply Forall_app. split.
    + eapply below_le; [|exact L2]. lia.
    + constructor; [cbn; lia|constructor].
Qed.

Lemma BInv_step inp st st' :
  AInv st -> BInv st -> a_index st < length inp -> step inp st = SOk st' -> BInv st' /\ a_line st < a_line st'.
Proof.
  intros HI [B1 B2 B3 B4] Hlt Hs.
  destruct (step_change inp st st' HI ltac:(lia) Hs) as (t & e & Hsc & Hch).
  destruct (scan_ok inp (a_index st) _ _ ltac:(lia) Hsc) as (Hie & Hle & Htok).
  assert (a_heap st <> []) as Hne.
  { pose proof (s_len _ (i_s _ _ _ _ _ HI)). destruct (a_heap st); [cbn in *; lia|discriminate]. }
  destruct Hch as [n p g e' Hcr Hp Hg Hcore Hm Hc Hix Hee|c lf Hic Hlce Hh Hm Hc Hix Hli|op v -> Hh Hm Hc Hix Hli|q -> Hh Hm Hc Hix Hli].
  - destruct (created_bound inp st e t n p e' (a_line st') HI ltac:(lia) Hsc Hcr B3 B4) as [Hb Hl]. split; [|assumption]. constructor.
    + eapply Forall_core; [intros; eapply node_bound_core; eauto|apply map_core_tl; symmetry; exact Hcore|].
      apply app_upd_tl_Forall; auto.
      * eapply Forall_impl; [|exact B1]. intros x. apply node_bound_le. lia.
      * intros x (X1 & X2 & X3 & X4 & X5). destruct (Hg x) as (G1 & G2 & G3 & G4 & G5).
        unfold node_bound, hanging in *. rewrite G2, G3, G4, (stat_comments _ _ G1).
        assert (n_line (g x) = n_line x) as -> by (unfold stat in G1; congruence).
        conjs; auto.
    + rewrite Hm. eapply below_le; [|exact B2]. lia.
    + rewrite Hc. constructor.
    + rewrite Hc. discriminate.
  - split; [|lia]. constructor.
    + rewrite Hh, Hli. unfold hupd.
      assert (l_line lf = a_line st) as Hlf by (destruct Hic; reflexivity).
      assert (forall x, node_bound (a_line st) x -> node_bound (S (a_line st)) (cont_upd lf x)) as Hg.
      { intros x Hx. apply (node_bound_le _ (S (a_line st))) in Hx; [|lia]. destruct Hx as (F1 & F2 & F3 & F4 & F5).
        unfold hanging in F2. rewrite !Forall_app in F2. destruct F2 as (F2a & F2b & F2c & F2d).
        unfold cont_upd. destruct (n_conts x) as [cs|] eqn:Ec.
        - unfold node_bound, hanging. cbn. repeat split; auto. rewrite !Forall_app. repeat split; auto.
          constructor; [lia|constructor].
        - assert (node_bound (S (a_line st)) (set_conts (Some [lf]) x)) as Hb.
          { unfold node_bound, hanging. cbn. repeat split; auto. apply Forall_app. split; [assumption|].
            constructor; [lia|]. apply Forall_app. auto. }
          destruct (itype_eqb (n_type x) EMPTY_ELEMENT); [|exact Hb].
          destruct Hb as (G1 & G2 & G3 & G4 & G5). repeat split; auto. discriminate. }
      assert (Forall (node_bound (S (a_line st))) (tl (a_heap st))) as B1' by (eapply Forall_impl; [|exact B1]; intros x; apply node_bound_le; lia).
      destruct c as [|c]; [now rewrite tl_upd0|]. rewrite tl_upd.
      assert (forall l i, Forall (node_bound (a_line st)) l -> Forall (node_bound (S (a_line st))) (upd l i (cont_upd lf))) as G.
      { intros l i H. revert i. induction H; intros [|i]; cbn [upd]; constructor; auto.
        - eapply Forall_impl; [|eassumption]. intro. apply node_bound_le. lia.
        - eapply node_bound_le; [|eassumption]. lia. }
      now apply G.
    + rewrite Hm, Hli. apply below_flush; (eapply below_le; [|eassumption]; lia).
    + rewrite Hc. constructor.
    + rewrite Hc. discriminate.
  - split; [|lia]. constructor.
    + rewrite Hh, Hli. eapply Forall_impl; [|exact B1]. intros x. apply node_bound_le. lia.
    + rewrite Hm, Hli. eapply below_le; [|exact B2]. lia.
    + rewrite Hc, Hli. cbn [olist]. apply Forall_app. split; [eapply below_le; [|exact B3]; lia|].
      constructor; [cbn; lia|constructor].
    + rewrite Hc. destruct (olist (a_comments st)); discriminate.
  - split; [|lia]. constructor.
    + rewrite Hh, Hli. eapply Forall_impl; [|exact B1]. intros x. apply node_bound_le. lia.
    + rewrite Hm, Hli. apply below_flush; (eapply below_le; [|eassumption]; lia).
    + rewrite Hc. constructor.
    + rewrite Hc. discriminate.
Qed.

Theorem reach_BInv inp st : reach inp st -> BInv st.
Proof.
  induction 1 as [|st st' Hr IH Hlt Hs].
  - constructor; cbn; try constructor. discriminate.
  - destruct (reach_inv _ _ Hr) as [HI _]. eapply BInv_step; eassumption.
Qed.
Lemma reach_line inp st : reach inp st -> a_index st = 0 \/ 0 < a_line st.
Proof.
  induction 1 as [|st st' Hr IH Hlt Hs]; [now left|]. right.
  destruct (reach_inv _ _ Hr) as [HI _]. destruct (BInv_step inp st st' HI (reach_BInv _ _ Hr) Hlt Hs) as [_ H]. lia.
Qed.

(** * The lines remaining at an error *)

Definition rest_leaf (l : leaf) : Prop :=
  exists s, l_ranges l = [(R_line, s)] /\ l_text l = None /\ (l_type l = None \/ l_type l = Some UNPARSED).

Lemma tokenize_spec inp fuel index line first ls lc :
  tokenize_error inp fuel index line first = Some (ls, lc) ->
  lc = line + length ls /\ Forall rest_leaf ls /\
  (forall j l, nth_error ls j = Some l -> l_line l = line + j) /\
  (forall l, hd_error ls = Some l -> fst (leaf_line l) = index) /\
  (index <= length inp -> tiles inp index (map leaf_line ls) (S (length inp))) /\
  (length inp < index -> map leaf_line ls = [(index, length inp)]) /\
  (index <= length inp -> begins_line inp index -> Forall (fun l => nested inp (l_ranges l) /\ ~ In nl (at_range inp (leaf_line l))) ls).
Proof.
  revert index line first ls lc. induction fuel as [|f IH]; intros index line first ls lc; cbn [tokenize_error]; [discriminate|].
  destruct (find_nl inp index) as [e|] eqn:E.
  - destruct (tokenize_error inp f (e + 1) (line + 1) false) as [[ls' lc']|] eqn:Er; [|discriminate]. intros [= <- <-].
    destruct (IH _ _ _ _ _ Er) as (I1 & I2 & I3 & _ & I4 & I5 & I6).
    pose proof E as E'. apply find_nl_some in E'.
    unfold find_nl in E. apply find_nl_in_some in E as (n & -> & Hn & Hnth & Hf).
    rewrite nth_error_skipn' in Hnth. rewrite skipn_length in Hn.
    conjs.
    + cbn [length]. lia.
    + constructor; [|assumption]. eexists. split; [reflexivity|]. split; [reflexivity|]. destruct first; auto.
    + intros [|j] l; cbn [nth_error]; intro H; [injection H as <-; cbn; lia|]. rewrite (I3 _ _ H). lia.
    + intros l [= <-]. reflexivity.
    + intro Hi. cbn [map]. constructor; try lia; [right; assumption|]. replace (S (index + n)) with (index + n + 1) by lia. apply I4. lia.
    + intro. lia.
    + intros Hi Hb. constructor.
      * split.
        -- exists index, (index + n). split; [reflexivity|]. split; [lia|]. split; [lia|]. split; [assumption|].
           split; [right; assumption|]. split; [intros nm s [[= <- <-]|[]]; cbn; lia|ranges_apart].
        -- unfold leaf_line, line_range, at_range, slice. cbn. replace (index + n - index) with n by lia. now apply not_nl_in.
      * apply I6; [lia|]. right. replace (index + n + 1 - 1) with (index + n) by lia. assumption.
  - intros [= <- <-]. conjs.
    + constructor; [|constructor]. eexists. split; [reflexivity|]. split; [reflexivity|]. destruct first; auto.
    + intros [|j] l; cbn [nth_error]; intro H; [injection H as <-; cbn; lia|destruct j; discriminate].
    + intros l [= <-]. reflexivity.
    + intro Hi. cbn [map]. constructor; try lia; [left; reflexivity|constructor].
    + intro Hi. reflexivity.
    + intros Hi Hb. constructor; [|constructor]. split.
      * exists index, (length inp). split; [reflexivity|]. split; [lia|]. split; [lia|]. split; [assumption|].
        split; [left; reflexivity|]. split; [intros nm s [[= <- <-]|[]]; cbn; lia|ranges_apart].
      * unfold find_nl in E. unfold leaf_line, line_range, at_range, slice. cbn. apply not_nl_in.
        rewrite firstn_all2 by (rewrite skipn_length; lia). now apply find_nl_in_none in E.
Qed.

(** the state in which analysis of [inp] stopped with error [e], coming from [st0] *)
Inductive stopped (inp : text) (st0 : ast) (e : perr) (st : ast) (lc : nat) : Prop :=
| st_line i ls :
    tokenize_error inp (S (length inp)) (a_index st0) (a_line st0) true = Some (i :: ls, lc) ->
    a_heap st = a_heap st0 -> a_meta st = a_meta st0 ++ i :: ls ->
    (e = PInvalidLine i \/ e = PMissingElementForContinuation i \/ e = PMissingListForItem i \/
     e = PMissingFieldsetForEntry i \/ e = PLayerSkip i (a_lsec st0)) ->
    stopped inp st0 e st lc
| st_multi op k j i ls :
    scan (a_index st0) (skipn (a_index st0) inp) = Some (TMultiline op k, j) ->
    find_closing (sub inp op) (sub inp k) j (skipn j inp) = None ->
    tokenize_error inp (S (length inp)) (S j) (S (a_line st0)) true = Some (i :: ls, lc) ->
    a_heap st = app_upd (a_heap st0) (multiline_node inp st0 j op k) (a_lsec st0)
                  (fun n => set_elements (n_elements n ++ [length (a_heap st0)]) n) ->
    a_meta st = a_meta st0 ++ i :: ls ->
    e = PUnterminatedMultiline (length (a_heap st0)) ->
    stopped inp st0 e st lc.

Theorem step_stopped inp st0 e st lc :
  AInv st0 -> a_index st0 < length inp -> step inp st0 = SErr e st lc -> stopped inp st0 e st lc.
Proof.
  intros HI Hix. rewrite step_tstep by (assumption || lia). unfold tstep.
  assert (forall mk, fail_at inp st0 (a_index st0) (a_line st0) mk = SErr e st lc ->
    exists i ls, tokenize_error inp (S (length inp)) (a_index st0) (a_line st0) true = Some (i :: ls, lc) /\
      a_heap st = a_heap st0 /\ a_meta st = a_meta st0 ++ i :: ls /\ e = mk i) as Hfail.
  { intros mk. destruct (fail_at_err inp st0 (a_index st0) (a_line st0) mk) as (i & ls & lc' & Ht & ->).
    intros [= <- <- <-]. exists i, ls. auto. }
  destruct (scan _ _) as [[t j]|] eqn:Hs.
  2:{ intro H. apply Hfail in H as (i & ls & H1 & H2 & H3 & H4). eapply st_line; eauto. }
  destruct t as [p|op v|op v|op v|op v|op k|op k tp|k op v|k op v|k op tp]; cbn [tstep_tok]; try discriminate.
  - destruct (a_lce st0); [discriminate|]. intro H. apply Hfail in H as (i & ls & H1 & H2 & H3 & H4). eapply st_line; eauto.
  - destruct (a_lce st0); [discriminate|]. intro H. apply Hfail in H as (i & ls & H1 & H2 & H3 & H4). eapply st_line; eauto.
  - intro H. assert (fail_at inp st0 (a_index st0) (a_line st0) PMissingListForItem = SErr e st lc) as H'.
    { destruct (a_lnse st0) as [l|]; [|exact H]. destruct (takes_items _); [discriminate|exact H]. }
    apply Hfail in H' as (i & ls & H1 & H2 & H3 & H4). eapply st_line; eauto.
  - destruct (find_closing (sub inp op) (sub inp k) j (skipn j inp)) as [[stop [[o2 k2] e2]]|] eqn:Ec.
    + destruct (if Nat.eqb stop j then _ else _) as [[[lines line3] index3]|]; discriminate.
    + match goal with |- fail_at inp ?s ?i ?l ?mk = _ -> _ =>
        destruct (fail_at_err inp s i l mk) as (x & ls & lc' & Ht & E) end.
      rewrite E. intros [= <- <- <-]. eapply st_multi; try eassumption; try reflexivity.
  - fold (width op). destruct (section_parent st0 (width op)) as [[p|]|] eqn:Ep; [|discriminate|].
    + destruct tp as [[o ts]|]; [|discriminate]. destruct (mark_deep _ _ _); discriminate.
    + intro H. apply Hfail in H as (i & ls & H1 & H2 & H3 & H4). eapply st_line; eauto.
  - intro H. assert (fail_at inp st0 (a_index st0) (a_line st0) PMissingFieldsetForEntry = SErr e st lc) as H'.
    { destruct (a_lnse st0) as [l|]; [|exact H]. destruct (takes_entries _); [discriminate|exact H]. }
    apply Hfail in H' as (i & ls & H1 & H2 & H3 & H4). eapply st_line; eauto 6.
Qed.

Theorem analyze_stopped inp e st lc : analyze inp = AErr e st lc ->
  exists st0, reach inp st0 /\ a_index st0 < length inp /\ stopped inp st0 e st lc.
Proof.
  intro H. pose proof (analyze_reach inp) as G. rewrite H in G. destruct G as (st0 & G1 & G2 & G3).
  exists st0. split; [assumption|]. split; [assumption|]. apply step_stopped; auto. now apply reach_inv in G1.
Qed.

(** the document itself has no texts, comments or template *)
Theorem reach_document inp st : reach inp st -> stat (hget (a_heap st) 0) = stat document_node.
Proof.
  induction 1 as [|st st' Hr IH Hlt Hs]; [reflexivity|]. destruct (reach_inv _ _ Hr) as [HI _].
  destruct (step_change inp st st' HI ltac:(lia) Hs) as (t & e & Hsc & Hch). rewrite <- IH.
  pose proof (s_len _ (i_s _ _ _ _ _ HI)) as Hlen.
  destruct Hch as [n p g e' Hcr Hp Hg Hcore Hm Hc Hix Hee|c lf Hic Hlce Hh Hm Hc Hix Hli|op v -> Hh Hm Hc Hix Hli|q -> Hh Hm Hc Hix Hli].
  - assert (stat (hget (a_heap st') 0) = stat (hget (app_upd (a_heap st) n p g) 0)) as ->.
    { pose proof (map_core_get _ _ 0 Hcore) as H. unfold core in H. congruence. }
    assert (stat (hget (app_upd (a_heap st) n p g) 0) = stat (hget (a_heap st ++ [n]) 0)) as ->.
    { unfold app_upd. destruct p as [|p].
      - rewrite hget_upd_eq by (rewrite app_length; cbn; lia). apply Hg.
      - now rewrite hget_upd_neq by discriminate. }
    unfold hget. now rewrite app_nth1.
  - rewrite Hh. unfold hupd. destruct c as [|c].
    + rewrite hget_upd_eq by assumption. unfold cont_upd.
      destruct (n_conts (hget (a_heap st) 0)) eqn:E; [reflexivity|]. destruct (itype_eqb (n_type (hget (a_heap st) 0)) EMPTY_ELEMENT) eqn:E2; [|reflexivity].
      assert (n_type (hget (a_heap st) 0) = EMPTY_ELEMENT) as Et by (destruct (n_type (hget (a_heap st) 0)); cbn in E2; congruence).
      pose proof (s_doc _ (i_s _ _ _ _ _ HI)) as Hd. unfold ncls in Hd. rewrite Et in Hd. discriminate.
    + now rewrite hget_upd_neq by discriminate.
  - now rewrite Hh.
  - now rewrite Hh.
Qed.
