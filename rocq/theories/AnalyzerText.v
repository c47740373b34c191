(** AnalyzerText: ranges and texts recorded by the analyzer describe the input; the recorded
    lines tile it. *)
From Coq Require Import Permutation.
From Verif Require Import Base Types Scan Analyzer TokenStep ScanProofs ScanFacts StepProofs HeapFacts AnalyzerInv
  AnalyzerLoop StepChange SpecText.

Lemma line_end_ends inp e : line_end inp e <-> e <= length inp /\ ends_line inp e.
Proof.
  unfold line_end, ends_line, at_eol. split.
  - intros [H [E|[r E]]]; split; try assumption.
    + left. apply (f_equal (@length _)) in E. rewrite skipn_length in E. cbn in E. lia.
    + right. rewrite <- (firstn_skipn e inp), E.
      rewrite nth_error_app2 by apply firstn_le_length.
      rewrite firstn_length_le by assumption. now rewrite Nat.sub_diag.
  - intros [H [->|E]]; split; try assumption.
    + left. apply skipn_all.
    + right. exists (skipn (S e) inp). clear H. revert e E.
      induction inp as [|c inp IH]; intros [|e]; cbn; try discriminate; [now intros [= ->]|apply IH].
Qed.

Lemma begins_next inp e : line_end inp e -> e < length inp -> begins_line inp (S e).
Proof.
  intros H Hlt. apply line_end_ends in H as [_ [->|H]]; [lia|]. right. cbn. now rewrite Nat.sub_0_r.
Qed.

(** * Created nodes are faithful *)

Ltac conjs := repeat match goal with |- _ /\ _ => split | |- _ = _ => reflexivity end.
Ltac in_cases H :=
  unfold tfield_ranges, tentry_ranges, tcopy_ranges, tsection_ranges in H;
  cbn [In app orange l_ranges] in H;
  repeat match type of H with
         | _ \/ _ => destruct H as [H|H]
         | False => destruct H
         | (_, _) = (_, _) => injection H as <- <-
         end.

Ltac ranges_apart :=
  split;
  [unfold tfield_ranges, tentry_ranges, tcopy_ranges, tsection_ranges; cbn [map fst app orange l_ranges];
   repeat (apply NoDup_cons; [cbn [In]; intuition discriminate|]); apply NoDup_nil
  |let H1 := fresh in let H2 := fresh in
   intros ? ? ? ? H1 H2 ? ? ?; in_cases H1; in_cases H2; try congruence; unfold before; cbn [fst snd]; lia].

Lemma clean_trimmed inp s : clean (sub inp s) -> trimmed (at_range inp s).
Proof. exact (fun H => H). Qed.

Lemma field_faithful inp st e k op v :
  begins_line inp (a_index st) -> a_index st <= e -> line_end inp e ->
  tok_ok inp (a_index st) e (TField k op v) ->
  Forall (leaf_faithful inp) (olist (a_comments st)) ->
  node_faithful inp (field_node inp st e k op v).
Proof.
  intros Hb Hie Hle (Hk & [Hop _] & Hw & Hv) Hc. apply line_end_ends in Hle as [Hle Hen].
  unfold node_faithful, field_node, hanging. cbn.
  destruct k as [s|b s x], v as [[vb ve]|]; unfold key_ok, key_hi, value_ok, span_in in *; cbn [fst snd] in *;
  (conjs;
   [exists (a_index st), e; repeat (split; [first [assumption|reflexivity]|]);
    (split; [intros nm r Hin; in_cases Hin; cbn; lia|ranges_apart])
   |intros nm r Hin Ht; in_cases Hin; try discriminate; apply clean_trimmed; tauto
   |rewrite app_nil_r; assumption]).
Qed.

Lemma item_faithful inp st e op v l :
  begins_line inp (a_index st) -> a_index st <= e -> line_end inp e ->
  tok_ok inp (a_index st) e (TItem op v) ->
  Forall (leaf_faithful inp) (olist (a_comments st)) ->
  node_faithful inp (item_node inp st e op v l).
Proof.
  intros Hb Hie Hle ([Hop _] & Hw & Hv) Hc. apply line_end_ends in Hle as [Hle Hen].
  unfold node_faithful, item_node, hanging. cbn.
  destruct v as [[vb ve]|]; unfold value_ok, span_in in *; cbn [fst snd] in *;
  (conjs;
   [exists (a_index st), e; repeat (split; [first [assumption|reflexivity]|]);
    (split; [intros nm r Hin; in_cases Hin; cbn; lia|ranges_apart])
   |intros nm r Hin Ht; in_cases Hin; try discriminate; apply clean_trimmed; tauto
   |rewrite app_nil_r; assumption]).
Qed.

Lemma entry_faithful inp st e k op v l :
  begins_line inp (a_index st) -> a_index st <= e -> line_end inp e ->
  tok_ok inp (a_index st) e (TEntry k op v) ->
  Forall (leaf_faithful inp) (olist (a_comments st)) ->
  node_faithful inp (entry_node inp st e k op v l).
Proof.
  intros Hb Hie Hle (Hk & [Hop _] & Hw & Hv) Hc. apply line_end_ends in Hle as [Hle Hen].
  unfold node_faithful, entry_node, hanging. cbn.
  destruct k as [s|b s x], v as [[vb ve]|]; unfold key_ok, key_hi, value_ok, span_in in *; cbn [fst snd] in *;
  (conjs;
   [exists (a_index st), e; repeat (split; [first [assumption|reflexivity]|]);
    (split; [intros nm r Hin; in_cases Hin; cbn; lia|ranges_apart])
   |intros nm r Hin Ht; in_cases Hin; try discriminate; apply clean_trimmed; tauto
   |rewrite app_nil_r; assumption]).
Qed.

Lemma copy_faithful inp st e k op t :
  begins_line inp (a_index st) -> a_index st <= e -> line_end inp e ->
  tok_ok inp (a_index st) e (TCopy k op t) ->
  Forall (leaf_faithful inp) (olist (a_comments st)) ->
  node_faithful inp (copy_node inp st e k op t).
Proof.
  intros Hb Hie Hle (Hk & [Hop _] & Hw & Hv) Hc. apply line_end_ends in Hle as [Hle Hen].
  unfold node_faithful, copy_node, hanging. cbn.
  destruct k as [s|b s x], t as [vb ve]; unfold key_ok, key_hi, value_ok, span_in in *; cbn [fst snd] in *;
  (conjs;
   [exists (a_index st), e; repeat (split; [first [assumption|reflexivity]|]);
    (split; [intros nm r Hin; in_cases Hin; cbn; lia|ranges_apart])
   |intros nm r Hin Ht; in_cases Hin; try discriminate; apply clean_trimmed; tauto
   |rewrite app_nil_r; assumption]).
Qed.

Lemma section_faithful inp st e op k t p :
  begins_line inp (a_index st) -> a_index st <= e -> line_end inp e ->
  tok_ok inp (a_index st) e (TSection op k t) ->
  Forall (leaf_faithful inp) (olist (a_comments st)) ->
  node_faithful inp (section_node inp st e op k t p).
Proof.
  intros Hb Hie Hle ([Hop _] & Hk & Hh & Ht) Hc. apply line_end_ends in Hle as [Hle Hen].
  unfold node_faithful, section_node, hanging. cbn.
  destruct k as [s|b s x], t as [[[ob oe] [vb ve]]|]; unfold tsection_ranges, deep_op, key_ok, key_hi, op_ok, value_ok, span_in in *; cbn [fst snd] in *;
  try (destruct (oe - ob =? 2));
  (conjs;
   [exists (a_index st), e; repeat (split; [first [assumption|reflexivity]|]);
    (split; [intros nm r Hin; in_cases Hin; cbn; lia|ranges_apart])
   |intros nm r Hin Htx; in_cases Hin; try discriminate; apply clean_trimmed; tauto
   |rewrite app_nil_r; assumption]).
Qed.

Lemma cont_faithful inp st e op v sp c :
  begins_line inp (a_index st) -> a_index st <= e -> line_end inp e ->
  op_ok inp (a_index st) e c op -> value_ok inp (snd op) e v ->
  leaf_faithful inp (cont_leaf inp st e op v sp).
Proof.
  intros Hb Hie Hle [Hop _] Hv. apply line_end_ends in Hle as [Hle Hen].
  unfold leaf_faithful, cont_leaf. cbn.
  destruct v as [[vb ve]|], sp; unfold value_ok, span_in in *; cbn [fst snd] in *;
  (conjs;
   [exists (a_index st), e; repeat (split; [first [assumption|reflexivity]|]);
    (split; [intros nm r Hin; in_cases Hin; cbn; lia|ranges_apart])
   |intros nm r Hin Ht; in_cases Hin; try discriminate; apply clean_trimmed; tauto]).
Qed.

Lemma comment_faithful inp st e op v :
  begins_line inp (a_index st) -> a_index st <= e -> line_end inp e ->
  tok_ok inp (a_index st) e (TComment op v) ->
  leaf_faithful inp (comment_leaf inp st e op v).
Proof.
  intros Hb Hie Hle ([Hop _] & Hw & Hv). apply line_end_ends in Hle as [Hle Hen].
  unfold leaf_faithful, comment_leaf. cbn.
  destruct v as [[vb ve]|]; unfold value_ok, span_in in *; cbn [fst snd] in *;
  (conjs;
   [exists (a_index st), e; repeat (split; [first [assumption|reflexivity]|]);
    (split; [intros nm r Hin; in_cases Hin; cbn; lia|ranges_apart])
   |intros nm r Hin Ht; in_cases Hin; try discriminate; apply clean_trimmed; tauto]).
Qed.

(** * Multiline fields *)

Lemma nth_error_skipn' {A} (l : list A) i n : nth_error (skipn i l) n = nth_error l (i + n).
Proof.
  revert i. induction l as [|x l IH]; intros [|i]; cbn; try reflexivity.
  - destruct n; reflexivity.
  - apply IH.
Qed.
Lemma nth_error_firstn' {A} (l : list A) k n : n < k -> nth_error (firstn k l) n = nth_error l n.
Proof.
  revert k n. induction l as [|x l IH]; intros [|k] [|n] H; cbn; try reflexivity; try lia.
  apply IH. lia.
Qed.

Definition vleaf (line b e : nat) : leaf :=
  MkLeaf (Some MULTILINE_FIELD_VALUE) line [(R_line, (b, e)); (R_value, (b, e))] None false.

Lemma ml_spec inp fuel index line stop ls line3 :
  ml_lines inp fuel index line stop = Some (ls, line3) ->
  index <= stop -> stop < length inp -> nth_error inp stop = Some nl -> begins_line inp index ->
  Forall (leaf_faithful inp) ls /\ line3 = line + length ls /\
  tiles inp index (map leaf_line ls) (S stop) /\
  (forall j l, nth_error ls j = Some l -> l_line l = line + j) /\
  Forall (fun l => l_type l = Some MULTILINE_FIELD_VALUE) ls /\ ls <> [].
Proof.
  revert index line ls line3. induction fuel as [|f IH]; intros index line ls line3; cbn [ml_lines]; [discriminate|].
  intros H Hle Hlt Hnl Hb. destruct (find_nl_to inp index stop) as [e|] eqn:E.
  - pose proof (find_nl_to_some _ _ _ _ E) as He.
    unfold find_nl_to, slice in E. apply find_nl_in_some in E as (n & -> & Hn & Hnth & Hf).
    rewrite nth_error_firstn' in Hnth by (rewrite firstn_length in Hn; lia).
    rewrite nth_error_skipn' in Hnth.
    destruct (ml_lines inp f (index + n + 1) (line + 1) stop) as [[ls' l']|] eqn:Er; [|discriminate].
    injection H as <- <-. apply IH in Er; try assumption; [|lia|].
    2:{ right. replace (index + n + 1 - 1) with (index + n) by lia. assumption. }
    destruct Er as (I1 & I2 & I3 & I4 & I5 & I6). repeat split.
    + constructor; [|assumption]. split; cbn.
      * exists index, (index + n). split; [reflexivity|]. split; [lia|]. split; [lia|]. split; [assumption|]. split; [right; assumption|].
        split; [intros nm s Hin; in_cases Hin; cbn; lia|ranges_apart].
      * split; [reflexivity|]. apply not_nl_in. unfold line_range, at_range, slice. cbn.
        rewrite firstn_firstn in Hf. replace (Nat.min n (stop - index)) with n in Hf by lia.
        replace (index + n - index) with n by lia. assumption.
    + cbn [length]. lia.
    + cbn [map]. unfold leaf_line at 1, line_range. cbn. constructor; try lia; [right; assumption|].
      replace (S (index + n)) with (index + n + 1) by lia. assumption.
    + intros [|j] l; cbn; [intros [= <-]; cbn; lia|]. intro Hj. apply I4 in Hj. lia.
    + constructor; [reflexivity|assumption].
    + discriminate.
  - unfold find_nl_to in E. apply find_nl_in_none in E. injection H as <- <-. repeat split.
    + constructor; [|constructor]. split; cbn.
      * exists index, stop. split; [reflexivity|]. split; [lia|]. split; [lia|]. split; [assumption|]. split; [right; assumption|].
        split; [intros nm s Hin; in_cases Hin; cbn; lia|ranges_apart].
      * split; [reflexivity|]. apply not_nl_in. exact E.
    + cbn [map]. unfold leaf_line, line_range. cbn. constructor; try lia; [right; assumption|constructor].
    + intros [|j] l; cbn; [intros [= <-]; cbn; lia|]. destruct j; discriminate.
    + constructor; [reflexivity|constructor].
    + discriminate.
Qed.

(** facts about [ml_part] *)
Lemma ml_part_spec inp e line stop lines line3 index3 :
  ml_part inp e line stop = Some (lines, line3, index3) ->
  e <= stop -> stop < length inp -> nth_error inp stop = Some nl -> line_end inp e ->
  index3 = S stop /\ Forall (leaf_faithful inp) (olist lines) /\
  line3 = S line + length (olist lines) /\
  tiles inp (S e) (map leaf_line (olist lines)) index3 /\
  (forall j l, nth_error (olist lines) j = Some l -> l_line l = S line + j) /\
  (lines = None <-> stop = e) /\ lines <> Some [].
Proof.
  unfold ml_part. intros H Hle Hlt Hnl Hend. destruct (Nat.eqb_spec stop e) as [->|Hne].
  - injection H as <- <- <-. cbn. repeat split; auto; try lia; try constructor; try discriminate.
    intros [|j] l; discriminate.
  - destruct (ml_lines _ _ _ _ _) as [[ls l3]|] eqn:E; [|discriminate]. injection H as <- <- <-.
    apply ml_spec in E; try assumption; [|lia|apply begins_next; [assumption|lia]].
    destruct E as (I1 & I2 & I3 & I4 & I5 & I6). cbn. repeat split; auto; try lia; try congruence.
Qed.

Lemma closing_faithful inp op k e stop o2 k2 e2 line3 :
  op <> [] -> clean k -> e <= length inp ->
  find_closing op k e (skipn e inp) = Some (stop, (o2, k2, e2)) ->
  leaf_faithful inp (end_leaf line3 (S stop) e2 o2 k2) /\
  sub inp o2 = op /\ sub inp k2 = k.
Proof.
  intros Hop Hk He H.
  destruct (closing_bounds inp op k e stop o2 k2 e2 He H) as (B1 & B2 & B3 & B4 & B5).
  apply (find_closing_ok inp) in H; [|split; [reflexivity|assumption]]. destruct H as (_ & _ & H).
  apply (closing_line_ok inp) in H; [|split; [reflexivity|lia]].
  destruct H as (C1 & C2 & C3 & C4 & C5 & C6 & C7 & C8 & _).
  assert (0 < length op) as Hop0 by (destruct op; [congruence|cbn; lia]).
  split; [|auto]. apply line_end_ends in B3 as [B3 B3'].
  unfold leaf_faithful, end_leaf. cbn. split.
  - exists (S stop), e2. repeat (split; [first [assumption|reflexivity]|]).
    split; [right; cbn; now rewrite Nat.sub_0_r|]. split; [assumption|].
    split; [intros nm s Hin; in_cases Hin; cbn; lia|ranges_apart].
  - intros nm s Hin Ht. in_cases Hin; try discriminate. unfold at_range. unfold sub in C2. rewrite C2. assumption.
Qed.

Lemma created_faithful inp st e t n p e' line' :
  begins_line inp (a_index st) -> a_index st <= e -> line_end inp e ->
  tok_ok inp (a_index st) e t -> created inp st e t n p e' line' ->
  Forall (leaf_faithful inp) (olist (a_comments st)) ->
  node_faithful inp n.
Proof.
  intros Hb Hie Hle Htok Hcr Hc. destruct Hcr.
  - now apply field_faithful.
  - now apply item_faithful.
  - now apply entry_faithful.
  - now apply section_faithful.
  - destruct Htok as ([Hop Hops] & Hw & [Hv Hcl]).
    pose proof Hle as Hle'. apply line_end_ends in Hle' as [Hlen Hen].
    destruct (closing_bounds _ _ _ _ _ _ _ _ Hlen H) as (B1 & B2 & B3 & B4 & B5).
    destruct (ml_part_spec _ _ _ _ _ _ _ H0 B1 B4 B5 Hle) as (-> & M2 & M3 & _).
    eapply closing_faithful in H as (F1 & _); [| |exact Hcl|assumption].
    2:{ intro E. rewrite Hops in E. unfold width in Hw. destruct (snd op - fst op); [lia|discriminate]. }
    unfold node_faithful, ended, multiline_node, hanging. cbn. unfold span_in in *.
    conjs.
    + exists (a_index st), e. repeat (split; [first [assumption|reflexivity]|]).
      split; [intros nm r Hin; in_cases Hin; cbn; lia|ranges_apart].
    + intros nm r Hin Ht. in_cases Hin; try discriminate. now apply clean_trimmed.
    + apply Forall_app. split; [assumption|]. apply Forall_app. split; [exact M2|]. constructor; [exact F1|constructor].
  - now apply copy_faithful.
Qed.

(** * The invariant *)

Record TInv (inp : text) (st : ast) : Prop := {
  t_index : a_index st <= length inp -> begins_line inp (a_index st);
  t_heap : Forall (node_faithful inp) (tl (a_heap st));
  t_meta : Forall (leaf_faithful inp) (a_meta st);
  t_comments : Forall (leaf_faithful inp) (olist (a_comments st))
}.

Lemma tl_upd {A} (l : list A) i f : tl (upd l (S i) f) = upd (tl l) i f.
Proof. destruct l; cbn; [destruct i; reflexivity|reflexivity]. Qed.
Lemma tl_upd0 {A} (l : list A) f : tl (upd l 0 f) = tl l.
Proof. destruct l; reflexivity. Qed.
Lemma tl_app {A} (l : list A) x : l <> [] -> tl (l ++ [x]) = tl l ++ [x].
Proof. destruct l; [congruence|reflexivity]. Qed.

Lemma Forall_upd {A} (P : A -> Prop) l i f :
  Forall P l -> (forall x, P x -> P (f x)) -> Forall P (upd l i f).
Proof.
  intros H Hf. revert i. induction H; intros [|i]; cbn [upd]; constructor; auto.
Qed.

Lemma node_faithful_ext inp x y : stat x = stat y ->
  n_conts x = n_conts y -> n_lines x = n_lines y -> n_end x = n_end y ->
  node_faithful inp x -> node_faithful inp y.
Proof.
  intros Hs H1 H2 H3. unfold node_faithful, hanging.
  rewrite (stat_ranges _ _ Hs), (stat_key _ _ Hs), (stat_value _ _ Hs), (stat_template _ _ Hs), (stat_comments _ _ Hs), H1, H2, H3.
  auto.
Qed.
Lemma node_faithful_core inp x y : core x = core y -> node_faithful inp x -> node_faithful inp y.
Proof. intro H. unfold core, dyn in H. apply node_faithful_ext; congruence. Qed.

Lemma Forall_core (P : node -> Prop) h h' : (forall x y, core x = core y -> P x -> P y) ->
  map core h = map core h' -> Forall P h -> Forall P h'.
Proof.
  intros HP. revert h'. induction h as [|x h IH]; intros [|y h'] H HF; cbn [map] in H; try discriminate; constructor.
  - inversion_clear HF. eapply HP; [|eassumption]. congruence.
  - inversion_clear HF. apply IH; [|assumption]. congruence.
Qed.
Lemma map_core_tl h h' : map core h = map core h' -> map core (tl h) = map core (tl h').
Proof. destruct h, h'; cbn; congruence. Qed.

Lemma created_comments inp st e t n p e' l' : created inp st e t n p e' l' -> n_comments n = a_comments st.
Proof. destruct 1; reflexivity. Qed.
Lemma created_line inp st e t n p e' l' : created inp st e t n p e' l' -> n_line n = a_line st.
Proof. destruct 1; reflexivity. Qed.
Lemma created_range inp st e t n p e' l' : created inp st e t n p e' l' -> line_range (n_ranges n) = (a_index st, e).
Proof. destruct 1; reflexivity. Qed.
Lemma created_parent inp st e t n p e' l' : created inp st e t n p e' l' -> n_parent n = Some p.
Proof. destruct 1; reflexivity. Qed.

Lemma app_upd_tl_Forall (P : node -> Prop) h n p g :
  h <> [] -> p < length h -> Forall P (tl h) -> P n -> (forall x, P x -> P (g x)) -> Forall P (tl (app_upd h n p g)).
Proof.
  intros Hh Hp HF Hn Hg. unfold app_upd.
  assert (Forall P (tl (h ++ [n]))) as HF2 by (rewrite tl_app by assumption; apply Forall_app; auto).
  destruct p as [|p]; [now rewrite tl_upd0|]. rewrite tl_upd. now apply Forall_upd.
Qed.

Lemma leaf_flush inp meta c : Forall (leaf_faithful inp) meta -> Forall (leaf_faithful inp) (olist c) ->
  Forall (leaf_faithful inp) (flush meta c).
Proof. intros H1 H2. destruct c; cbn in *; [now apply Forall_app|assumption]. Qed.

Lemma TInv_step inp st st' :
  AInv st -> TInv inp st -> a_index st < length inp -> step inp st = SOk st' -> TInv inp st'.
Proof.
  intros HI [T1 T2 T3 T4] Hlt Hs.
  destruct (step_change inp st st' HI ltac:(lia) Hs) as (t & e & Hsc & Hch).
  destruct (scan_ok inp (a_index st) _ _ ltac:(lia) Hsc) as (Hie & Hle & Htok).
  assert (a_heap st <> []) as Hne.
  { pose proof (s_len _ (i_s _ _ _ _ _ HI)). destruct (a_heap st); [cbn in *; lia|discriminate]. }
  specialize (T1 ltac:(lia)).
  assert (S e <= length inp -> begins_line inp (S e)) as Hnext by (intro; apply begins_next; [assumption|lia]).
  destruct Hch as [n p g e' Hcr Hp Hg Hcore Hm Hc Hix Hee|c lf Hic Hlce Hh Hm Hc Hix Hli|op v -> Hh Hm Hc Hix Hli|q -> Hh Hm Hc Hix Hli].
  - constructor.
    + rewrite Hix. intro. apply begins_next; [apply Hee|lia].
    + eapply Forall_core; [intros; eapply node_faithful_core; eauto|apply map_core_tl; symmetry; exact Hcore|].
      apply app_upd_tl_Forall; auto.
      * eapply created_faithful; eauto.
      * intros x Hx. destruct (Hg x) as (G1 & G2 & G3 & G4 & _). eapply node_faithful_ext; [| | | |exact Hx]; congruence.
    + rewrite Hm. assumption.
    + rewrite Hc. constructor.
  - constructor.
    + rewrite Hix. assumption.
    + rewrite Hh. unfold hupd.
      assert (leaf_faithful inp lf) as Hlf by (destruct Hic; destruct Htok as (Hop & _ & Hv); eapply cont_faithful; eauto).
      assert (forall x, node_faithful inp x -> node_faithful inp (cont_upd lf x)) as Hg.
      { intros x (F1 & F2 & F3 & F4 & F5 & F6). unfold node_faithful, cont_upd.
        destruct (n_conts x) as [cs|] eqn:Ec.
        - cbn. repeat (split; [assumption|]). unfold hanging in *. cbn. rewrite Ec in F6.
          rewrite !Forall_app in *. repeat split; try tauto. constructor; [assumption|constructor].
        - assert (node_faithful inp (set_conts (Some [lf]) x)) as Hx.
          { repeat (split; [assumption|]). unfold hanging in *. cbn. rewrite Ec in F6.
            rewrite !Forall_app in F6. apply Forall_app. split; [tauto|]. constructor; [assumption|].
            apply Forall_app. tauto. }
          destruct (itype_eqb (n_type x) EMPTY_ELEMENT); exact Hx. }
      destruct c as [|c]; [now rewrite tl_upd0|]. rewrite tl_upd. now apply Forall_upd.
    + rewrite Hm. now apply leaf_flush.
    + rewrite Hc. constructor.
  - constructor.
    + rewrite Hix. assumption.
    + now rewrite Hh.
    + now rewrite Hm.
    + rewrite Hc. cbn. apply Forall_app. split; [assumption|]. constructor; [|constructor].
      now apply comment_faithful.
  - constructor.
    + rewrite Hix. assumption.
    + now rewrite Hh.
    + rewrite Hm. now apply leaf_flush.
    + rewrite Hc. constructor.
Qed.

Theorem reach_text inp st : reach inp st -> TInv inp st.
Proof.
  induction 1 as [|st st' Hr IH Hlt Hs].
  - constructor; cbn; try constructor. reflexivity.
  - apply TInv_step with st; auto. now apply reach_inv in Hr.
Qed.
