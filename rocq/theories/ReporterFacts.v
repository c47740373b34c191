(** ReporterFacts: indexing, tagging and printing of well-formed contexts. *)
From Verif Require Import Base Types Messages HeapFacts AnalyzerInv SpecText SpecTree AnalyzerText AnalyzerTree Reporter.

(** * Well-formed contexts *)

(** children are registered where they should be; nothing about types *)
Record Shape (h : heap) : Prop := {
  sh_s : SInv h;
  sh_elems : forall p, p < length h -> n_elements (hget h p) = ids (elem_of p) h;
  sh_items : forall p, p < length h -> olist (n_items (hget h p)) = ids (item_of p) h;
  sh_entries : forall p, p < length h -> olist (n_entries (hget h p)) = ids (entry_of p) h
}.

Definition leaf_ok (lc : nat) (l : leaf) : Prop := l_line l < lc /\ rget (l_ranges l) R_line <> None.
Definition node_ok (lc : nat) (n : node) : Prop :=
  n_line n < lc /\ rget (n_ranges n) R_line <> None /\ Forall (leaf_ok lc) (hanging n).

Record WF (c : ctx) : Prop := {
  wf_shape : Shape (c_heap c);
  wf_node : forall i, 0 < i < length (c_heap c) -> node_ok (c_line_count c) (hget (c_heap c) i);
  wf_text : forall i, 0 < i < length (c_heap c) -> node_faithful (c_input c) (hget (c_heap c) i);
  wf_meta : Forall (leaf_ok (c_line_count c)) (c_meta c);
  wf_lc : 0 < c_line_count c
}.

Lemma hang_comments n l : In l (olist (n_comments n)) -> In l (hanging n).
Proof. intro H. unfold hanging. apply in_or_app. now left. Qed.
Lemma hang_conts n l : In l (olist (n_conts n)) -> In l (hanging n).
Proof. intro H. unfold hanging. apply in_or_app. right. apply in_or_app. now left. Qed.
Lemma hang_lines n l : In l (olist (n_lines n)) -> In l (hanging n).
Proof. intro H. unfold hanging. apply in_or_app. right. apply in_or_app. right. apply in_or_app. now left. Qed.
Lemma hang_end n l : n_end n = Some l -> In l (hanging n).
Proof. intro H. unfold hanging. rewrite H. apply in_or_app. right. apply in_or_app. right. apply in_or_app. right. now left. Qed.

Lemma shape_elem h p i : Shape h -> In i (n_elements (hget h p)) -> p < i < length h /\ n_parent (hget h i) = Some p /\
  (ncls (hget h i) = CElem \/ ncls (hget h i) = CSec).
Proof.
  intros HS Hi. destruct (Nat.lt_ge_cases p (length h)) as [Hp|Hp].
  2:{ unfold hget in Hi. rewrite nth_overflow in Hi by lia. destruct Hi. }
  rewrite (sh_elems _ HS p Hp) in Hi. apply in_ids in Hi as [H1 H2]. unfold elem_of, has_parent in H2.
  apply andb_true_iff in H2 as [H2 H3]. destruct (n_parent (hget h i)) as [q|] eqn:E; [|discriminate].
  apply Nat.eqb_eq in H2. subst q. pose proof (SInv_parent_lt _ _ _ (sh_s _ HS) H1 E). split; [lia|]. split; [reflexivity|].
  unfold is_cls in H3. apply orb_true_iff in H3 as [H3|H3]; apply nclass_eqb_eq in H3; auto.
Qed.
Lemma shape_item h p i : Shape h -> In i (olist (n_items (hget h p))) -> p < i < length h /\ n_parent (hget h i) = Some p /\ ncls (hget h i) = CItem.
Proof.
  intros HS Hi. destruct (Nat.lt_ge_cases p (length h)) as [Hp|Hp].
  2:{ unfold hget in Hi. rewrite nth_overflow in Hi by lia. destruct Hi. }
  rewrite (sh_items _ HS p Hp) in Hi. apply in_ids in Hi as [H1 H2]. unfold item_of, has_parent in H2.
  apply andb_true_iff in H2 as [H2 H3]. destruct (n_parent (hget h i)) as [q|] eqn:E; [|discriminate].
  apply Nat.eqb_eq in H2. subst q. pose proof (SInv_parent_lt _ _ _ (sh_s _ HS) H1 E). split; [lia|]. split; [reflexivity|].
  unfold is_cls in H3. now apply nclass_eqb_eq in H3.
Qed.
Lemma shape_entry h p i : Shape h -> In i (olist (n_entries (hget h p))) -> p < i < length h /\ n_parent (hget h i) = Some p /\ ncls (hget h i) = CEntry.
Proof.
  intros HS Hi. destruct (Nat.lt_ge_cases p (length h)) as [Hp|Hp].
  2:{ unfold hget in Hi. rewrite nth_overflow in Hi by lia. destruct Hi. }
  rewrite (sh_entries _ HS p Hp) in Hi. apply in_ids in Hi as [H1 H2]. unfold entry_of, has_parent in H2.
  apply andb_true_iff in H2 as [H2 H3]. destruct (n_parent (hget h i)) as [q|] eqn:E; [|discriminate].
  apply Nat.eqb_eq in H2. subst q. pose proof (SInv_parent_lt _ _ _ (sh_s _ HS) H1 E). split; [lia|]. split; [reflexivity|].
  unfold is_cls in H3. now apply nclass_eqb_eq in H3.
Qed.

(** * Results *)

Lemma foldM_inv {A S} (P : S -> Prop) (f : S -> A -> res S) l s :
  P s -> (forall s x, P s -> In x l -> exists s', f s x = Ok s' /\ P s') -> exists s', foldM f l s = Ok s' /\ P s'.
Proof.
  revert s. induction l as [|x l IH]; intros s Hs Hf; cbn [foldM]; [eauto|].
  destruct (Hf s x Hs) as (s' & E & Hs'); [now left|]. rewrite E. cbn [bind]. apply IH; [assumption|].
  intros s0 y H0 Hy. apply Hf; [assumption|now right].
Qed.
Lemma foldM_app {A S} (f : S -> A -> res S) l1 l2 s : foldM f (l1 ++ l2) s = do s' <- foldM f l1 s; foldM f l2 s'.
Proof.
  revert s. induction l1 as [|x l1 IH]; intro s; cbn [foldM app]; [reflexivity|]. destruct (f s x); cbn [bind]; auto.
Qed.

Lemma aset_ok {A} (l : list A) i x : i < length l -> aset l i x = Ok (upd l i (fun _ => x)).
Proof. intro H. unfold aset. apply Nat.ltb_lt in H. now rewrite H. Qed.
Lemma nth_upd {A} (l : list A) i j (f : A -> A) :
  nth_error (upd l i f) j = if Nat.eqb i j then option_map f (nth_error l j) else nth_error l j.
Proof.
  revert i j. induction l as [|x l IH]; intros [|i] [|j]; cbn [upd nth_error Nat.eqb option_map]; try reflexivity.
  - now destruct (Nat.eqb i j).
  - apply IH.
Qed.

(** * The index *)

Section Index.
  Context (c : ctx) (Hwf : WF c).
  Let h := c_heap c.
  Let HS := wf_shape _ Hwf.

  (** the instruction recorded for line [j] is one of that line *)
  Definition source_of (j : nat) (ri : rinfo) : Prop :=
    (exists i, 0 < i < length h /\ n_line (hget h i) = j /\ ri = node_info (hget h i)) \/
    (exists i l, 0 < i < length h /\ In l (hanging (hget h i)) /\ l_line l = j /\ ri = leaf_info l) \/
    (exists l, In l (c_meta c) /\ l_line l = j /\ ri = leaf_info l).
  Definition indexed (ix : rindex) : Prop :=
    length ix = c_line_count c /\ forall j ri, nth_error ix j = Some (Some ri) -> source_of j ri.
  (** lines once recorded stay recorded *)
  Definition grows (ix ix' : rindex) : Prop :=
    forall j ri, nth_error ix j = Some (Some ri) -> exists ri', nth_error ix' j = Some (Some ri').
  Definition covers (ix : rindex) (j : nat) : Prop := exists ri, nth_error ix j = Some (Some ri).

  Lemma grows_refl ix : grows ix ix. Proof. intros j ri H. eauto. Qed.
  Lemma grows_trans a b d : grows a b -> grows b d -> grows a d.
  Proof. intros H1 H2 j ri H. apply H1 in H as [r H]. eauto. Qed.
  Lemma grows_covers a b j : grows a b -> covers a j -> covers b j.
  Proof. intros H [ri Hr]. apply H in Hr. exact Hr. Qed.

  Lemma aset_index ix j ri : indexed ix -> j < c_line_count c -> source_of j ri ->
    exists ix', aset ix j (Some ri) = Ok ix' /\ indexed ix' /\ grows ix ix' /\ covers ix' j.
  Proof.
    intros [H1 H2] Hj Hs. rewrite aset_ok by lia. eexists. split; [reflexivity|]. split; [split|split].
    - now rewrite upd_length.
    - intros k r. rewrite nth_upd. destruct (Nat.eqb_spec j k) as [->|Hne]; [|apply H2].
      destruct (nth_error ix k); [|discriminate]. cbn. intros [= <-]. assumption.
    - intros k r Hk. rewrite nth_upd. destruct (Nat.eqb_spec j k) as [->|Hne]; [rewrite Hk; cbn; eauto|eauto].
    - exists ri. rewrite nth_upd, Nat.eqb_refl. destruct (nth_error ix j) eqn:E; [reflexivity|].
      apply nth_error_None in E. lia.
  Qed.

  (** folding an indexing step that covers something for every member *)
  Lemma fold_index {A} (f : rindex -> A -> res rindex) (cov : A -> nat -> Prop) l ix :
    indexed ix ->
    (forall ix x, indexed ix -> In x l -> exists ix', f ix x = Ok ix' /\ indexed ix' /\ grows ix ix' /\ forall j, cov x j -> covers ix' j) ->
    exists ix', foldM f l ix = Ok ix' /\ indexed ix' /\ grows ix ix' /\ forall x j, In x l -> cov x j -> covers ix' j.
  Proof.
    revert ix. induction l as [|x l IH]; intros ix Hix Hf; cbn [foldM].
    - exists ix. split; [reflexivity|]. split; [assumption|]. split; [apply grows_refl|]. intros y j [].
    - destruct (Hf ix x Hix) as (ix1 & E1 & H1 & G1 & C1); [now left|]. rewrite E1. cbn [bind].
      destruct (IH ix1 H1) as (ix2 & E2 & H2 & G2 & C2); [intros; apply Hf; [assumption|now right]|].
      exists ix2. split; [assumption|]. split; [assumption|]. split; [eapply grows_trans; eassumption|].
      intros y j [->|Hy] Hc; [|now apply (C2 y j)]. eapply grows_covers; [eassumption|auto].
  Qed.

  Lemma leaves_index ls ix : indexed ix -> (forall l, In l ls -> l_line l < c_line_count c /\ source_of (l_line l) (leaf_info l)) ->
    exists ix', foldM (fun ix l => aset ix (l_line l) (Some (leaf_info l))) ls ix = Ok ix' /\ indexed ix' /\ grows ix ix' /\
      forall l, In l ls -> covers ix' (l_line l).
  Proof.
    intros Hix Hl. destruct (fold_index (fun ix l => aset ix (l_line l) (Some (leaf_info l))) (fun l j => j = l_line l) ls ix Hix) as (ix' & E & H & G & C).
    - intros ix0 l H0 Hin. destruct (Hl l Hin) as [L1 L2].
      destruct (aset_index ix0 (l_line l) (leaf_info l) H0 L1 L2) as (ix1 & E1 & I1 & G1 & C1).
      exists ix1. repeat (split; [assumption|]). intros j ->. assumption.
    - exists ix'. repeat (split; [assumption|]). intros l Hin. now apply (C l).
  Qed.

  Lemma hanging_src i l : 0 < i < length h -> In l (hanging (hget h i)) ->
    l_line l < c_line_count c /\ source_of (l_line l) (leaf_info l).
  Proof.
    intros Hi Hl. destruct (wf_node _ Hwf i Hi) as (_ & _ & HF). rewrite Forall_forall in HF.
    split; [now apply HF|]. right. left. exists i, l. auto.
  Qed.
  Lemma node_src i : 0 < i < length h -> n_line (hget h i) < c_line_count c /\ source_of (n_line (hget h i)) (node_info (hget h i)).
  Proof. intro Hi. destruct (wf_node _ Hwf i Hi) as (H & _). split; [assumption|]. left. exists i. auto. Qed.

  Lemma index_leaves_ok i o ix : 0 < i < length h -> (forall l, In l (olist o) -> In l (hanging (hget h i))) -> indexed ix ->
    exists ix', index_leaves o ix = Ok ix' /\ indexed ix' /\ grows ix ix' /\ forall l, In l (olist o) -> covers ix' (l_line l).
  Proof.
    intros Hi Ho Hix. destruct o as [ls|]; cbn [index_leaves olist] in *.
    - apply leaves_index; [assumption|]. intros l Hl. apply (hanging_src i); auto.
    - exists ix. split; [reflexivity|]. split; [assumption|]. split; [apply grows_refl|]. intros l [].
  Qed.

  (** lines an item / entry puts into the index *)
  Definition cont_covers (i j : nat) : Prop :=
    j = n_line (hget h i) \/ exists l, In l (olist (n_comments (hget h i)) ++ olist (n_conts (hget h i))) /\ j = l_line l.

  Lemma continuables_ok o ix : (forall i, In i (olist o) -> 0 < i < length h) -> indexed ix ->
    exists ix', index_continuables h o ix = Ok ix' /\ indexed ix' /\ grows ix ix' /\
      forall i j, In i (olist o) -> cont_covers i j -> covers ix' j.
  Proof.
    intros Ho Hix. destruct o as [ids|]; cbn [index_continuables olist] in *.
    - apply (fold_index _ cont_covers); [assumption|]. clear ix Hix. intros ix i Hix Hin. specialize (Ho i Hin).
      destruct (index_leaves_ok i (n_comments (hget h i)) ix Ho (hang_comments _) Hix) as (ix1 & E1 & I1 & G1 & C1). rewrite E1. cbn [bind].
      destruct (node_src i Ho) as [N1 N2].
      destruct (aset_index ix1 _ _ I1 N1 N2) as (ix2 & E2 & I2 & G2 & C2). rewrite E2. cbn [bind].
      destruct (index_leaves_ok i (n_conts (hget h i)) ix2 Ho (hang_conts _) I2) as (ix3 & E3 & I3 & G3 & C3).
      exists ix3. split; [assumption|]. split; [assumption|]. split; [exact (grows_trans _ _ _ (grows_trans _ _ _ G1 G2) G3)|].
      intros j [->|(l & Hl & ->)].
      + eapply grows_covers; eassumption.
      + apply in_app_or in Hl as [Hl|Hl]; [|auto]. exact (grows_covers _ _ _ (grows_trans _ _ _ G2 G3) (C1 l Hl)).
    - exists ix. split; [reflexivity|]. split; [assumption|]. split; [apply grows_refl|]. intros i j [].
  Qed.

  (** lines the element [e] itself puts into the index *)
  Definition own_covers (e j : nat) : Prop :=
    j = n_line (hget h e) \/
    (exists l, In l (olist (n_comments (hget h e))) /\ j = l_line l) \/
    match n_type (hget h e) with
    | FIELD => exists l, In l (olist (n_conts (hget h e))) /\ j = l_line l
    | MULTILINE_FIELD_BEGIN => (exists l, n_end (hget h e) = Some l /\ j = l_line l) \/ exists l, In l (olist (n_lines (hget h e))) /\ j = l_line l
    | LIST => exists i, In i (olist (n_items (hget h e))) /\ cont_covers i j
    | FIELDSET => exists i, In i (olist (n_entries (hget h e))) /\ cont_covers i j
    | _ => False
    end.
  (** lines put into the index below section [s] *)
  Inductive below_covers : nat -> nat -> Prop :=
  | bc_own s e j : In e (n_elements (hget h s)) -> own_covers e j -> below_covers s j
  | bc_sub s e j : In e (n_elements (hget h s)) -> n_type (hget h e) = SECTION -> below_covers e j -> below_covers s j.

  Lemma traverse_ok fuel s ix : s < length h -> length h <= fuel + s -> indexed ix ->
    exists ix', traverse fuel h s ix = Ok ix' /\ indexed ix' /\ grows ix ix' /\ forall j, below_covers s j -> covers ix' j.
  Proof.
    revert s ix. induction fuel as [|f IH]; intros s ix Hs Hf Hix; [lia|]. cbn [traverse].
    match goal with |- context [foldM ?F _ _] =>
      destruct (fold_index F (fun e j => own_covers e j \/ n_type (hget h e) = SECTION /\ below_covers e j) (n_elements (hget h s)) ix Hix) as (ix' & E & H & G & C)
    end.
    - clear ix Hix. intros ix e Hix He. destruct (shape_elem h s e HS He) as (He1 & _). assert (0 < e < length h) as He0 by lia.
      destruct (index_leaves_ok e (n_comments (hget h e)) ix He0 (hang_comments _) Hix) as (ix1 & E1 & I1 & G1 & C1). rewrite E1. cbn [bind].
      destruct (node_src e He0) as [N1 N2].
      destruct (aset_index ix1 _ _ I1 N1 N2) as (ix2 & E2 & I2 & G2 & C2). rewrite E2. cbn [bind].
      assert (forall r (P : nat -> Prop),
        (exists ix', r = Ok ix' /\ indexed ix' /\ grows ix2 ix' /\ forall j, P j -> covers ix' j) ->
        (forall j, own_covers e j \/ n_type (hget h e) = SECTION /\ below_covers e j ->
           j = n_line (hget h e) \/ (exists l, In l (olist (n_comments (hget h e))) /\ j = l_line l) \/ P j) ->
        exists ix', r = Ok ix' /\ indexed ix' /\ grows ix ix' /\
          forall j, own_covers e j \/ n_type (hget h e) = SECTION /\ below_covers e j -> covers ix' j) as K.
      { intros r P (ix' & Er & Ir & Gr & Cr) HP. exists ix'. split; [assumption|]. split; [assumption|].
        split; [exact (grows_trans _ _ _ (grows_trans _ _ _ G1 G2) Gr)|]. intros j Hj. apply HP in Hj as [->|[(l & Hl & ->)|Hj]]; [| |auto].
        - exact (grows_covers _ _ _ Gr C2).
        - exact (grows_covers _ _ _ (grows_trans _ _ _ G2 Gr) (C1 l Hl)). }
      assert (forall T, n_type (hget h e) = T -> T <> SECTION -> T <> FIELD -> T <> MULTILINE_FIELD_BEGIN -> T <> LIST -> T <> FIELDSET ->
        exists ix', Ok ix2 = Ok ix' /\ indexed ix' /\ grows ix ix' /\
          forall j, own_covers e j \/ n_type (hget h e) = SECTION /\ below_covers e j -> covers ix' j) as Kp.
      { intros T ET T1 T2 T3 T4 T5. apply (K _ (fun _ => False)).
        - exists ix2. split; [reflexivity|]. split; [assumption|]. split; [apply grows_refl|]. intros j [].
        - unfold own_covers. rewrite ET. intros j [[->|[H|H]]|[H _]]; auto; destruct T; try contradiction; congruence. }
      destruct (n_type (hget h e)) eqn:Et; try (apply (Kp _ eq_refl); discriminate); clear Kp.
      + (* FIELD *)
        apply (K _ (fun j => exists l, In l (olist (n_conts (hget h e))) /\ j = l_line l)).
        * destruct (index_leaves_ok e (n_conts (hget h e)) ix2 He0 (hang_conts _) I2) as (ix3 & E3 & I3 & G3 & C3).
          exists ix3. repeat (split; [assumption|]). intros j (l & Hl & ->). auto.
        * unfold own_covers. rewrite Et. intros j [[->|[H|H]]|[H _]]; auto; discriminate.
      + (* FIELDSET *)
        apply (K _ (fun j => exists i, In i (olist (n_entries (hget h e))) /\ cont_covers i j)).
        * destruct (continuables_ok (n_entries (hget h e)) ix2) as (ix3 & E3 & I3 & G3 & C3); [|assumption|].
          { intros i Hi. apply (shape_entry h e i HS) in Hi as [Hi _]. lia. }
          exists ix3. repeat (split; [assumption|]). intros j (i & Hi & Hc). now apply (C3 i).
        * unfold own_covers. rewrite Et. intros j [[->|[H|H]]|[H _]]; auto; discriminate.
      + (* LIST *)
        apply (K _ (fun j => exists i, In i (olist (n_items (hget h e))) /\ cont_covers i j)).
        * destruct (continuables_ok (n_items (hget h e)) ix2) as (ix3 & E3 & I3 & G3 & C3); [|assumption|].
          { intros i Hi. apply (shape_item h e i HS) in Hi as [Hi _]. lia. }
          exists ix3. repeat (split; [assumption|]). intros j (i & Hi & Hc). now apply (C3 i).
        * unfold own_covers. rewrite Et. intros j [[->|[H|H]]|[H _]]; auto; discriminate.
      + (* MULTILINE *)
        apply (K _ (fun j => (exists l, n_end (hget h e) = Some l /\ j = l_line l) \/ exists l, In l (olist (n_lines (hget h e))) /\ j = l_line l)).
        * assert (exists ix3, match n_end (hget h e) with Some l => aset ix2 (l_line l) (Some (leaf_info l)) | None => Ok ix2 end = Ok ix3 /\
            indexed ix3 /\ grows ix2 ix3 /\ forall l, n_end (hget h e) = Some l -> covers ix3 (l_line l)) as (ix3 & E3 & I3 & G3 & C3).
          { destruct (n_end (hget h e)) as [l|] eqn:En.
            - destruct (hanging_src e l He0 (hang_end _ _ En)) as [L1 L2].
              destruct (aset_index ix2 _ _ I2 L1 L2) as (ix3 & E3 & I3 & G3 & C3). exists ix3. repeat (split; [assumption|]). intros l' [= <-]. assumption.
            - exists ix2. split; [reflexivity|]. split; [assumption|]. split; [apply grows_refl|]. discriminate. }
          rewrite E3. cbn [bind].
          destruct (index_leaves_ok e (n_lines (hget h e)) ix3 He0 (hang_lines _) I3) as (ix4 & E4 & I4 & G4 & C4).
          exists ix4. split; [assumption|]. split; [assumption|]. split; [exact (grows_trans _ _ _ G3 G4)|].
          intros j [(l & Hl & ->)|(l & Hl & ->)]; [|auto]. exact (grows_covers _ _ _ G4 (C3 l Hl)).
        * unfold own_covers. rewrite Et. intros j [[->|[H|H]]|[H _]]; auto; discriminate.
      + (* SECTION *)
        apply (K _ (below_covers e)).
        * apply IH; [lia|lia|assumption].
        * unfold own_covers. rewrite Et. intros j [[->|[H|[]]]|[_ H]]; auto.
    - exists ix'. split; [exact E|]. split; [assumption|]. split; [assumption|]. intros j Hj.
      inversion Hj as [s0 e j0 He Ho|s0 e j0 He Ht Hb]; subst; apply (C e j He); auto.
  Qed.

  Theorem build_index_ok : exists ix, build_index c = Ok ix /\ indexed ix /\
    (forall j, below_covers 0 j -> covers ix j) /\ forall l, In l (c_meta c) -> covers ix (l_line l).
  Proof.
    unfold build_index. fold h. assert (indexed (repeat None (c_line_count c))) as H0.
    { split; [apply repeat_length|]. intros j ri H. apply nth_error_In in H. apply repeat_spec in H. discriminate. }
    destruct (traverse_ok (S (length h)) 0 _ (s_len _ (sh_s _ HS)) ltac:(lia) H0) as (ix & E & I1 & _ & C). rewrite E. cbn [bind].
    destruct (leaves_index (c_meta c) ix I1) as (ix2 & E2 & I2 & G2 & C2).
    { intros l Hl. pose proof (wf_meta _ Hwf) as HF. rewrite Forall_forall in HF. split; [now apply HF|]. right. right. eauto. }
    exists ix2. split; [assumption|]. split; [assumption|]. split; [|assumption].
    intros j Hj. exact (grows_covers _ _ _ G2 (C j Hj)).
  Qed.

  Lemma new_reporter_ok : exists ix, new_reporter c = Ok (MkReporter c ix (repeat None (c_line_count c))) /\ build_index c = Ok ix /\ indexed ix.
  Proof.
    destruct build_index_ok as (ix & E & H & _). exists ix. unfold new_reporter. rewrite E. auto.
  Qed.

  (** recorded lines have a line range *)
  Lemma source_range j ri : source_of j ri -> rget (ri_ranges ri) R_line <> None /\ j < c_line_count c.
  Proof.
    pose proof (wf_meta _ Hwf) as HF. rewrite Forall_forall in HF.
    intros [(i & Hi & <- & ->)|[(i & l & Hi & Hl & <- & ->)|(l & Hl & <- & ->)]].
    - destruct (wf_node _ Hwf i Hi) as (H1 & H2 & _). auto.
    - destruct (wf_node _ Hwf i Hi) as (_ & _ & H). rewrite Forall_forall in H. destruct (H l Hl). auto.
    - destruct (HF l Hl). auto.
  Qed.
End Index.
