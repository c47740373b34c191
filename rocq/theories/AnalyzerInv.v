(** AnalyzerInv: structural invariant of the analysis loop. *)
From Verif Require Import Base Types Scan Analyzer TokenStep ScanProofs ScanFacts StepProofs HeapFacts.
From Verif Require Export SpecRun.



(** depth of a section = length of its operator *)
Definition odepth (n : node) : nat :=
  match ncls n with
  | CSec => match rget (n_ranges n) R_section_operator with Some s => width s | None => 0 end
  | _ => 0
  end.
Definition sec_like (n : node) : Prop := ncls n = CDoc \/ ncls n = CSec.

(** where instruction [i] is placed, relative to its parent [p] *)
Definition placed (h : heap) (p i : nat) : Prop :=
  match ncls (hget h i) with
  | CElem => sec_like (hget h p) /\ forall j, p < j < i -> ncls (hget h j) <> CSec
  | CSec => sec_like (hget h p) /\ odepth (hget h i) = S (odepth (hget h p)) /\
            forall j, p < j < i -> ncls (hget h j) = CSec -> odepth (hget h i) <= odepth (hget h j)
  | CItem => ncls (hget h p) = CElem /\
             forall j, p < j < i -> ncls (hget h j) = CItem /\ n_parent (hget h j) = Some p
  | CEntry => ncls (hget h p) = CElem /\
              forall j, p < j < i -> ncls (hget h j) = CEntry /\ n_parent (hget h j) = Some p
  | _ => False
  end.

Record SInv (h : heap) : Prop := {
  s_len : 0 < length h;
  s_doc : ncls (hget h 0) = CDoc;
  s_docp : n_parent (hget h 0) = None;
  s_node : forall i, 0 < i < length h ->
             exists p, n_parent (hget h i) = Some p /\ p < i /\ placed h p i
}.

(** fields that go with a type *)
Definition plain_node (n : node) : Prop :=
  n_items n = None /\ n_entries n = None /\ n_lines n = None /\ n_end n = None.
Definition type_ok (n : node) : Prop :=
  n_conts n <> Some [] /\
  match n_type n with
  | DOCUMENT => plain_node n /\ n_conts n = None /\ n_value n = None /\ n_template n = None
  | SECTION => plain_node n /\ n_conts n = None /\ n_value n = None
  | EMPTY_ELEMENT => plain_node n /\ n_conts n = None /\ n_value n = None
  | FIELD => plain_node n /\ n_template n = None /\ (n_value n <> None \/ n_conts n <> None)
  | LIST => n_entries n = None /\ n_lines n = None /\ n_end n = None /\ n_conts n = None /\
            n_value n = None /\ olist (n_items n) <> []
  | FIELDSET => n_items n = None /\ n_lines n = None /\ n_end n = None /\ n_conts n = None /\
            n_value n = None /\ olist (n_entries n) <> []
  | MULTILINE_FIELD_BEGIN =>
      n_items n = None /\ n_entries n = None /\ n_conts n = None /\ n_value n = None /\
      n_template n = None
  | LIST_ITEM => plain_node n /\ n_template n = None
  | FIELDSET_ENTRY => plain_node n /\ n_template n = None
  | _ => False
  end.

Record DInv (h : heap) : Prop := {
  d_elems : forall p, p < length h -> n_elements (hget h p) = ids (elem_of p) h;
  d_items : forall p, p < length h -> olist (n_items (hget h p)) = ids (item_of p) h;
  d_entries : forall p, p < length h -> olist (n_entries (hget h p)) = ids (entry_of p) h;
  d_type : forall p, p < length h -> type_ok (hget h p)
}.

Definition continuable (n : node) : Prop :=
  match n_type n with
  | EMPTY_ELEMENT | FIELD => n_template n = None
  | LIST_ITEM | FIELDSET_ENTRY => True
  | _ => False
  end.

Record Inv (h : heap) (ls depth : nat) (lce lnse : option nat) : Prop := {
  i_s : SInv h;
  i_d : DInv h;
  i_sec : ls < length h;
  i_seclike : sec_like (hget h ls);
  (* [ls] is the last section *)
  i_seclast : forall j, ls < j < length h -> ncls (hget h j) <> CSec;
  i_depth : odepth (hget h ls) = depth;
  (* sections behind an open section are deeper than it *)
  i_open : forall k a, climb h k ls = Some a ->
             forall j, a < j < length h -> ncls (hget h j) = CSec ->
               odepth (hget h a) < odepth (hget h j);
  (* the continuable element is the latest instruction, if that can be continued *)
  i_lce : match lce with
          | Some c => S c = length h /\ continuable (hget h c)
          | None => ~ continuable (hget h (length h - 1))
          end;
  (* the latest element of the current section, unless that is a multiline field *)
  i_lnse : match lnse with
           | Some l => l < length h /\ ncls (hget h l) = CElem /\
                       n_type (hget h l) <> MULTILINE_FIELD_BEGIN /\
                       n_parent (hget h l) = Some ls /\
                       forall j, l < j < length h ->
                         (ncls (hget h j) = CItem \/ ncls (hget h j) = CEntry) /\
                         n_parent (hget h j) = Some l
           | None => S ls = length h \/
                     n_type (hget h (length h - 1)) = MULTILINE_FIELD_BEGIN
                     /\ n_parent (hget h (length h - 1)) = Some ls
           end
}.
Definition AInv (st : ast) : Prop :=
  Inv (a_heap st) (a_lsec st) (a_depth st) (a_lce st) (a_lnse st).

(** * Static part *)

Lemma odepth_stat x y : stat x = stat y -> odepth x = odepth y.
Proof. intro H. unfold odepth. now rewrite (stat_cls _ _ H), (stat_ranges _ _ H). Qed.
Lemma sec_like_stat x y : stat x = stat y -> sec_like x -> sec_like y.
Proof. intro H. unfold sec_like. now rewrite (stat_cls _ _ H). Qed.

Lemma placed_stat h h' p i :
  (forall j, j <= i -> stat (hget h j) = stat (hget h' j)) -> p < i -> placed h p i -> placed h' p i.
Proof.
  intros H Hp. unfold placed. rewrite <- (stat_cls _ _ (H i (le_n i))).
  assert (stat (hget h p) = stat (hget h' p)) as Hpp by (apply H; lia).
  destruct (ncls (hget h i)); try tauto.
  - intros (H1 & H2 & H3). split; [now apply (sec_like_stat _ _ Hpp)|]. split.
    + rewrite <- (odepth_stat _ _ Hpp), <- (odepth_stat _ _ (H i (le_n i))). exact H2.
    + intros j Hj Hc. assert (stat (hget h j) = stat (hget h' j)) as Hjj by (apply H; lia).
      rewrite <- (odepth_stat _ _ Hjj), <- (odepth_stat _ _ (H i (le_n i))). apply H3; [assumption|].
      now rewrite (stat_cls _ _ Hjj).
  - intros (H1 & H2). split; [now apply (sec_like_stat _ _ Hpp)|]. intros j Hj.
    assert (stat (hget h j) = stat (hget h' j)) as Hjj by (apply H; lia).
    rewrite <- (stat_cls _ _ Hjj). now apply H2.
  - intros (H1 & H2). rewrite <- (stat_cls _ _ Hpp). split; [assumption|]. intros j Hj.
    assert (stat (hget h j) = stat (hget h' j)) as Hjj by (apply H; lia).
    rewrite <- (stat_cls _ _ Hjj), <- (stat_parent _ _ Hjj). now apply H2.
  - intros (H1 & H2). rewrite <- (stat_cls _ _ Hpp). split; [assumption|]. intros j Hj.
    assert (stat (hget h j) = stat (hget h' j)) as Hjj by (apply H; lia).
    rewrite <- (stat_cls _ _ Hjj), <- (stat_parent _ _ Hjj). now apply H2.
Qed.

Lemma SInv_stat h h' : map stat h = map stat h' -> SInv h -> SInv h'.
Proof.
  intros H [H1 H2 H3 H4]. pose proof (map_stat_length _ _ H) as Hl.
  assert (forall j, stat (hget h j) = stat (hget h' j)) as Hg by (intro; now apply map_stat_get).
  constructor.
  - lia.
  - now rewrite <- (stat_cls _ _ (Hg 0)).
  - now rewrite <- (stat_parent _ _ (Hg 0)).
  - intros i Hi. rewrite <- Hl in Hi. destruct (H4 i Hi) as (p & Hp & Hlt & Hpl).
    exists p. rewrite <- (stat_parent _ _ (Hg i)). repeat split; try assumption.
    eapply placed_stat; [|exact Hlt|exact Hpl]. intros; apply Hg.
Qed.

Lemma SInv_app h n p : SInv h -> n_parent n = Some p -> p < length h ->
  placed (h ++ [n]) p (length h) -> SInv (h ++ [n]).
Proof.
  intros [H1 H2 H3 H4] Hp Hlt Hpl. constructor.
  - rewrite app_length. lia.
  - now rewrite hget_app_l.
  - now rewrite hget_app_l.
  - intros i Hi. rewrite app_length in Hi. cbn [length] in Hi.
    destruct (Nat.eq_dec i (length h)) as [->|Hne].
    + exists p. rewrite hget_app_r. auto.
    + destruct (H4 i) as (q & Hq & Hql & Hqp); [lia|]. exists q. rewrite hget_app_l by lia.
      repeat split; try assumption. eapply placed_stat; [|exact Hql|exact Hqp].
      intros j Hj. now rewrite hget_app_l by lia.
Qed.

Lemma SInv_parent_lt h i p : SInv h -> i < length h -> n_parent (hget h i) = Some p -> p < i.
Proof.
  intros [H1 H2 H3 H4] Hi Hp. destruct (Nat.eq_dec i 0) as [->|Hne]; [congruence|].
  destruct (H4 i) as (q & Hq & Hl & _); [lia|]. congruence.
Qed.

(** nobody's parent is the next free number *)
Lemma ids_fresh (f : nat -> node -> bool) h :
  SInv h -> (forall p n, f p n = true -> has_parent p n = true) -> ids (f (length h)) h = [].
Proof.
  intros HS Hf. destruct (ids (f (length h)) h) as [|j l] eqn:E; [reflexivity|].
  assert (In j (ids (f (length h)) h)) as Hin by (rewrite E; now left).
  apply in_ids in Hin as [Hj Hfj]. apply Hf in Hfj. unfold has_parent in Hfj.
  destruct (n_parent (hget h j)) as [q|] eqn:Eq; [|discriminate]. apply Nat.eqb_eq in Hfj as ->.
  apply SInv_parent_lt in Eq; try assumption; lia.
Qed.
Lemma elem_of_parent p n : elem_of p n = true -> has_parent p n = true.
Proof. unfold elem_of. intro H. now apply andb_true_iff in H as [H _]. Qed.
Lemma item_of_parent p n : item_of p n = true -> has_parent p n = true.
Proof. unfold item_of. intro H. now apply andb_true_iff in H as [H _]. Qed.
Lemma entry_of_parent p n : entry_of p n = true -> has_parent p n = true.
Proof. unfold entry_of. intro H. now apply andb_true_iff in H as [H _]. Qed.

Lemma has_parent_self n p : n_parent n = Some p -> has_parent p n = true.
Proof. intro H. unfold has_parent. now rewrite H, Nat.eqb_refl. Qed.
Lemma has_parent_other n p q : n_parent n = Some p -> q <> p -> has_parent q n = false.
Proof. intros H Hne. unfold has_parent. rewrite H. apply Nat.eqb_neq. congruence. Qed.

(** * Dynamic part: the three registering updates *)

Definition fresh (n : node) : Prop :=
  n_elements n = [] /\ n_items n = None /\ n_entries n = None.

Lemma DInv_core h h' : map core h = map core h' -> DInv h -> DInv h'.
Proof.
  intros H [H1 H2 H3 H4]. pose proof (map_core_stat _ _ H) as Hs. pose proof (map_stat_length _ _ Hs) as Hl.
  assert (forall j, core (hget h j) = core (hget h' j)) as Hg by (intro; now apply map_core_get).
  constructor; intros p Hp; rewrite <- Hl in Hp; pose proof (Hg p) as Hc; unfold core, dyn in Hc.
  - rewrite <- (ids_stat _ _ _ (elem_of_stat p) Hs), <- H1 by assumption. congruence.
  - rewrite <- (ids_stat _ _ _ (item_of_stat p) Hs), <- H2 by assumption. congruence.
  - rewrite <- (ids_stat _ _ _ (entry_of_stat p) Hs), <- H3 by assumption. congruence.
  - specialize (H4 p Hp). unfold type_ok, plain_node in *. unfold stat in Hc.
    revert H4. generalize (hget h p) as x, (hget h' p) as y, Hc. clear. intros x y Hc.
    assert (n_type x = n_type y) as -> by congruence.
    assert (n_items x = n_items y) as -> by congruence.
    assert (n_entries x = n_entries y) as -> by congruence.
    assert (n_conts x = n_conts y) as -> by congruence.
    assert (n_lines x = n_lines y) as -> by congruence.
    assert (n_end x = n_end y) as -> by congruence.
    assert (n_value x = n_value y) as -> by congruence.
    assert (n_template x = n_template y) as -> by congruence. auto.
Qed.

Lemma DInv_add_element h n p :
  SInv h -> DInv h -> p < length h -> n_parent n = Some p -> fresh n ->
  (ncls n = CElem \/ ncls n = CSec) -> type_ok n -> ncls (hget h p) <> CElem ->
  DInv (add_element (h ++ [n]) p (length h)).
Proof.
  intros HS [H1 H2 H3 H4] Hp Hpar (F1 & F2 & F3) Hcls Hty Hpc. unfold add_element, hupd.
  set (g := fun n0 => set_elements (n_elements n0 ++ [length h]) n0).
  assert (map stat (upd (h ++ [n]) p g) = map stat (h ++ [n])) as Hst by (apply map_stat_upd; intro; reflexivity).
  assert (elem_of p n = true) as He.
  { unfold elem_of. rewrite (has_parent_self _ _ Hpar). unfold is_cls.
    destruct Hcls as [-> | ->]; reflexivity. }
  assert (forall q, item_of q n = false) as Hi.
  { intro q. unfold item_of, is_cls. destruct Hcls as [-> | ->]; apply andb_false_r. }
  assert (forall q, entry_of q n = false) as Hn.
  { intro q. unfold entry_of, is_cls. destruct Hcls as [-> | ->]; apply andb_false_r. }
  constructor; intros q Hq; rewrite upd_length, app_length in Hq; cbn [length] in Hq;
    (rewrite hget_upd by (rewrite app_length; cbn [length]; lia)).
  - rewrite (ids_stat _ _ _ (elem_of_stat q) Hst), ids_app.
    destruct (Nat.eqb_spec p q) as [<-|Hne].
    + rewrite He. unfold g. cbn. rewrite hget_app_l by assumption. now rewrite H1.
    + assert (elem_of q n = false) as ->.
      { unfold elem_of. rewrite (has_parent_other _ _ _ Hpar); [reflexivity|congruence]. }
      rewrite app_nil_r. destruct (Nat.eq_dec q (length h)) as [->|Hql].
      * rewrite hget_app_r, F1. symmetry. apply (ids_fresh elem_of); [assumption|apply elem_of_parent].
      * rewrite hget_app_l by lia. apply H1. lia.
  - rewrite (ids_stat _ _ _ (item_of_stat q) Hst), ids_app, Hi, app_nil_r.
    destruct (Nat.eqb_spec p q) as [<-|Hne].
    + unfold g. cbn. rewrite hget_app_l by assumption. now apply H2.
    + destruct (Nat.eq_dec q (length h)) as [->|Hql].
      * rewrite hget_app_r, F2. symmetry. apply (ids_fresh item_of); [assumption|apply item_of_parent].
      * rewrite hget_app_l by lia. apply H2. lia.
  - rewrite (ids_stat _ _ _ (entry_of_stat q) Hst), ids_app, Hn, app_nil_r.
    destruct (Nat.eqb_spec p q) as [<-|Hne].
    + unfold g. cbn. rewrite hget_app_l by assumption. now apply H3.
    + destruct (Nat.eq_dec q (length h)) as [->|Hql].
      * rewrite hget_app_r, F3. symmetry. apply (ids_fresh entry_of); [assumption|apply entry_of_parent].
      * rewrite hget_app_l by lia. apply H3. lia.
  - destruct (Nat.eqb_spec p q) as [<-|Hne].
    + unfold g, type_ok, plain_node. cbn. rewrite hget_app_l by assumption. apply H4. assumption.
    + destruct (Nat.eq_dec q (length h)) as [->|Hql].
      * now rewrite hget_app_r.
      * rewrite hget_app_l by lia. apply H4. lia.
Qed.

Lemma DInv_add_item h n p :
  SInv h -> DInv h -> p < length h -> n_parent n = Some p -> fresh n ->
  ncls n = CItem -> type_ok n -> takes_items (n_type (hget h p)) = true ->
  DInv (hupd (h ++ [n]) p (add_item (length h))).
Proof.
  intros HS [H1 H2 H3 H4] Hp Hpar (F1 & F2 & F3) Hcls Hty Htk. unfold hupd.
  assert (map stat (upd (h ++ [n]) p (add_item (length h))) = map stat (h ++ [n])) as Hst
    by (apply map_stat_upd, benign_add_item).
  assert (forall q, elem_of q n = false) as He.
  { intro q. unfold elem_of, is_cls. rewrite Hcls. apply andb_false_r. }
  assert (item_of p n = true) as Hi.
  { unfold item_of, is_cls. rewrite Hcls, (has_parent_self _ _ Hpar). reflexivity. }
  assert (forall q, entry_of q n = false) as Hn.
  { intro q. unfold entry_of, is_cls. rewrite Hcls. apply andb_false_r. }
  pose proof (H4 p Hp) as Htp.
  constructor; intros q Hq; rewrite upd_length, app_length in Hq; cbn [length] in Hq;
    (rewrite hget_upd by (rewrite app_length; cbn [length]; lia)).
  - rewrite (ids_stat _ _ _ (elem_of_stat q) Hst), ids_app, He, app_nil_r.
    destruct (Nat.eqb_spec p q) as [<-|Hne].
    + rewrite hget_app_l by assumption. rewrite <- H1 by assumption.
      unfold add_item. destruct (n_type (hget h p)); reflexivity.
    + destruct (Nat.eq_dec q (length h)) as [->|Hql].
      * rewrite hget_app_r, F1. symmetry. apply (ids_fresh elem_of); [assumption|apply elem_of_parent].
      * rewrite hget_app_l by lia. apply H1. lia.
  - rewrite (ids_stat _ _ _ (item_of_stat q) Hst), ids_app.
    destruct (Nat.eqb_spec p q) as [<-|Hne].
    + rewrite Hi, hget_app_l by assumption. rewrite <- H2 by assumption.
      unfold add_item, type_ok, plain_node in *.
      destruct (n_type (hget h p)); try discriminate; cbn.
      * destruct Htp as (_ & (-> & _) & _). reflexivity.
      * destruct (n_items (hget h p)); reflexivity.
    + assert (item_of q n = false) as ->.
      { unfold item_of. rewrite (has_parent_other _ _ _ Hpar); [reflexivity|congruence]. }
      rewrite app_nil_r. destruct (Nat.eq_dec q (length h)) as [->|Hql].
      * rewrite hget_app_r, F2. symmetry. apply (ids_fresh item_of); [assumption|apply item_of_parent].
      * rewrite hget_app_l by lia. apply H2. lia.
  - rewrite (ids_stat _ _ _ (entry_of_stat q) Hst), ids_app, Hn, app_nil_r.
    destruct (Nat.eqb_spec p q) as [<-|Hne].
    + rewrite hget_app_l by assumption. rewrite <- H3 by assumption.
      unfold add_item. destruct (n_type (hget h p)); reflexivity.
    + destruct (Nat.eq_dec q (length h)) as [->|Hql].
      * rewrite hget_app_r, F3. symmetry. apply (ids_fresh entry_of); [assumption|apply entry_of_parent].
      * rewrite hget_app_l by lia. apply H3. lia.
  - destruct (Nat.eqb_spec p q) as [<-|Hne].
    + rewrite hget_app_l by assumption. unfold add_item.
      unfold type_ok, plain_node in *. destruct (n_type (hget h p)) eqn:Et; try discriminate; cbn; rewrite ?Et.
      * intuition congruence.
      * destruct Htp as (Hc & E1 & E2 & E3 & E4 & E5 & E6). repeat split; try assumption.
        destruct (n_items (hget h p)) as [l|]; cbn; [destruct l|]; discriminate.
    + destruct (Nat.eq_dec q (length h)) as [->|Hql].
      * now rewrite hget_app_r.
      * rewrite hget_app_l by lia. apply H4. lia.
Qed.

Lemma DInv_add_entry h n p :
  SInv h -> DInv h -> p < length h -> n_parent n = Some p -> fresh n ->
  ncls n = CEntry -> type_ok n -> takes_entries (n_type (hget h p)) = true ->
  DInv (hupd (h ++ [n]) p (add_entry (length h))).
Proof.
  intros HS [H1 H2 H3 H4] Hp Hpar (F1 & F2 & F3) Hcls Hty Htk. unfold hupd.
  assert (map stat (upd (h ++ [n]) p (add_entry (length h))) = map stat (h ++ [n])) as Hst
    by (apply map_stat_upd, benign_add_entry).
  assert (forall q, elem_of q n = false) as He.
  { intro q. unfold elem_of, is_cls. rewrite Hcls. apply andb_false_r. }
  assert (entry_of p n = true) as Hi.
  { unfold entry_of, is_cls. rewrite Hcls, (has_parent_self _ _ Hpar). reflexivity. }
  assert (forall q, item_of q n = false) as Hn.
  { intro q. unfold item_of, is_cls. rewrite Hcls. apply andb_false_r. }
  pose proof (H4 p Hp) as Htp.
  constructor; intros q Hq; rewrite upd_length, app_length in Hq; cbn [length] in Hq;
    (rewrite hget_upd by (rewrite app_length; cbn [length]; lia)).
  - rewrite (ids_stat _ _ _ (elem_of_stat q) Hst), ids_app, He, app_nil_r.
    destruct (Nat.eqb_spec p q) as [<-|Hne].
    + rewrite hget_app_l by assumption. rewrite <- H1 by assumption.
      unfold add_entry. destruct (n_type (hget h p)); reflexivity.
    + destruct (Nat.eq_dec q (length h)) as [->|Hql].
      * rewrite hget_app_r, F1. symmetry. apply (ids_fresh elem_of); [assumption|apply elem_of_parent].
      * rewrite hget_app_l by lia. apply H1. lia.
  - rewrite (ids_stat _ _ _ (item_of_stat q) Hst), ids_app, Hn, app_nil_r.
    destruct (Nat.eqb_spec p q) as [<-|Hne].
    + rewrite hget_app_l by assumption. rewrite <- H2 by assumption.
      unfold add_entry. destruct (n_type (hget h p)); reflexivity.
    + destruct (Nat.eq_dec q (length h)) as [->|Hql].
      * rewrite hget_app_r, F2. symmetry. apply (ids_fresh item_of); [assumption|apply item_of_parent].
      * rewrite hget_app_l by lia. apply H2. lia.
  - rewrite (ids_stat _ _ _ (entry_of_stat q) Hst), ids_app.
    destruct (Nat.eqb_spec p q) as [<-|Hne].
    + rewrite Hi, hget_app_l by assumption. rewrite <- H3 by assumption.
      unfold add_entry, type_ok, plain_node in *.
      destruct (n_type (hget h p)); try discriminate; cbn.
      * destruct Htp as (_ & (_ & -> & _) & _). reflexivity.
      * destruct (n_entries (hget h p)); reflexivity.
    + assert (entry_of q n = false) as ->.
      { unfold entry_of. rewrite (has_parent_other _ _ _ Hpar); [reflexivity|congruence]. }
      rewrite app_nil_r. destruct (Nat.eq_dec q (length h)) as [->|Hql].
      * rewrite hget_app_r, F3. symmetry. apply (ids_fresh entry_of); [assumption|apply entry_of_parent].
      * rewrite hget_app_l by lia. apply H3. lia.
  - destruct (Nat.eqb_spec p q) as [<-|Hne].
    + rewrite hget_app_l by assumption. unfold add_entry.
      unfold type_ok, plain_node in *. destruct (n_type (hget h p)) eqn:Et; try discriminate; cbn; rewrite ?Et.
      * intuition congruence.
      * destruct Htp as (Hc & E1 & E2 & E3 & E4 & E5 & E6). repeat split; try assumption.
        destruct (n_entries (hget h p)) as [l|]; cbn; [destruct l|]; discriminate.
    + destruct (Nat.eq_dec q (length h)) as [->|Hql].
      * now rewrite hget_app_r.
      * rewrite hget_app_l by lia. apply H4. lia.
Qed.

(** updates that leave the child lists alone *)
Lemma DInv_upd h p g :
  DInv h -> p < length h -> benign g ->
  (forall x, n_elements (g x) = n_elements x /\ n_items (g x) = n_items x /\ n_entries (g x) = n_entries x) ->
  type_ok (g (hget h p)) -> DInv (hupd h p g).
Proof.
  intros [H1 H2 H3 H4] Hp Hb Hg Hty. unfold hupd.
  assert (map stat (upd h p g) = map stat h) as Hst by now apply map_stat_upd.
  constructor; intros q Hq; rewrite upd_length in Hq; rewrite hget_upd by assumption.
  - rewrite (ids_stat _ _ _ (elem_of_stat q) Hst).
    destruct (Nat.eqb_spec p q) as [<-|]; [|now apply H1]. destruct (Hg (hget h p)) as (-> & _ & _). now apply H1.
  - rewrite (ids_stat _ _ _ (item_of_stat q) Hst).
    destruct (Nat.eqb_spec p q) as [<-|]; [|now apply H2]. destruct (Hg (hget h p)) as (_ & -> & _). now apply H2.
  - rewrite (ids_stat _ _ _ (entry_of_stat q) Hst).
    destruct (Nat.eqb_spec p q) as [<-|]; [|now apply H3]. destruct (Hg (hget h p)) as (_ & _ & ->). now apply H3.
  - destruct (Nat.eqb_spec p q) as [<-|]; [assumption|now apply H4].
Qed.

(** * Preservation *)

Lemma climb_stat h h' k s : map stat h = map stat h' -> climb h k s = climb h' k s.
Proof.
  intro H. revert s. induction k as [|k IH]; intro s; cbn [climb]; [reflexivity|].
  rewrite (stat_parent _ _ (map_stat_get h h' s H)). destruct (n_parent (hget h' s)); auto.
Qed.

Lemma climb_app h n k s : SInv h -> s < length h -> climb (h ++ [n]) k s = climb h k s.
Proof.
  intro HS. revert s. induction k as [|k IH]; intros s Hs; cbn [climb]; [reflexivity|].
  rewrite hget_app_l by assumption. destruct (n_parent (hget h s)) as [q|] eqn:E; [|reflexivity].
  apply IH. apply SInv_parent_lt in E; auto; lia.
Qed.

Lemma climb_le h k s a : SInv h -> s < length h -> climb h k s = Some a -> a <= s.
Proof.
  intro HS. revert s. induction k as [|k IH]; intros s Hs; cbn [climb]; [intros [= ->]; lia|].
  destruct (n_parent (hget h s)) as [q|] eqn:E; [|discriminate].
  apply SInv_parent_lt in E; auto. intro H. apply IH in H; lia.
Qed.

Lemma climb_add h k k' s a : climb h k s = Some a -> climb h (k + k') s = climb h k' a.
Proof.
  revert s. induction k as [|k IH]; intros s; cbn [climb Nat.add]; [now intros [= ->]|].
  destruct (n_parent (hget h s)); [apply IH|discriminate].
Qed.

(** climbing from a section of depth [d] reaches an ancestor on every smaller depth *)
Lemma climb_sec h s k : SInv h -> s < length h -> sec_like (hget h s) -> k <= odepth (hget h s) ->
  exists a, climb h k s = Some a /\ odepth (hget h a) = odepth (hget h s) - k /\ sec_like (hget h a)
            /\ a < length h.
Proof.
  intro HS. revert s. induction k as [|k IH]; intros s Hs Hsl Hk; cbn [climb].
  - exists s. repeat split; auto. lia.
  - destruct Hsl as [Hd|Hc].
    { unfold odepth in Hk. rewrite Hd in Hk. lia. }
    destruct (Nat.eq_dec s 0) as [->|Hne]; [rewrite (s_doc _ HS) in Hc; discriminate|].
    destruct (s_node _ HS s) as (p & Hp & Hlt & Hpl); [lia|]. rewrite Hp.
    unfold placed in Hpl. rewrite Hc in Hpl. destruct Hpl as (Hpsl & Hod & _).
    destruct (IH p) as (a & Ha & Hoa & Hsa & Hla); [lia|assumption|lia|].
    exists a. repeat split; auto. lia.
Qed.

Lemma climb_none h s k : SInv h -> s < length h -> sec_like (hget h s) -> odepth (hget h s) < k ->
  climb h k s = None.
Proof.
  intro HS. revert s. induction k as [|k IH]; intros s Hs Hsl Hk; [lia|]. cbn [climb].
  destruct (Nat.eq_dec s 0) as [->|Hne]; [now rewrite (s_docp _ HS)|].
  destruct (s_node _ HS s) as (p & Hp & Hlt & Hpl); [lia|]. rewrite Hp.
  unfold placed in Hpl. destruct Hsl as [Hd|Hc]; [rewrite Hd in Hpl; contradiction|].
  rewrite Hc in Hpl. destruct Hpl as (Hpsl & Hod & _). apply IH; auto; lia.
Qed.

Lemma continuable_core x y : core x = core y -> continuable x -> continuable y.
Proof.
  intros H. unfold continuable. unfold core, stat, dyn in H.
  assert (n_type x = n_type y) as -> by congruence.
  assert (n_template x = n_template y) as -> by congruence. auto.
Qed.

Lemma Inv_core h h' ls d lce lnse : map core h = map core h' -> Inv h ls d lce lnse -> Inv h' ls d lce lnse.
Proof.
  intros H [I1 I2 I3 I4 I5 I6 I7 I8 I9].
  pose proof (map_core_stat _ _ H) as Hs. pose proof (map_stat_length _ _ Hs) as Hl.
  assert (forall j, stat (hget h j) = stat (hget h' j)) as Hg by (intro; now apply map_stat_get).
  assert (forall j, core (hget h j) = core (hget h' j)) as Hc by (intro; now apply map_core_get).
  constructor.
  - eapply SInv_stat; eauto.
  - eapply DInv_core; eauto.
  - lia.
  - eapply sec_like_stat; [apply Hg|assumption].
  - intros j Hj. rewrite <- (stat_cls _ _ (Hg j)). apply I5. lia.
  - rewrite <- (odepth_stat _ _ (Hg ls)). assumption.
  - intros k a Ha j Hj Hcj. rewrite <- (climb_stat _ _ _ _ Hs) in Ha.
    rewrite <- (odepth_stat _ _ (Hg a)), <- (odepth_stat _ _ (Hg j)). eapply I7; eauto; [lia|].
    now rewrite (stat_cls _ _ (Hg j)).
  - destruct lce as [c|].
    + destruct I8 as [Hlen Hco]. split; [lia|]. eapply continuable_core; eauto.
    + rewrite <- Hl. intro Hco. apply I8. eapply continuable_core; [symmetry; apply Hc|assumption].
  - destruct lnse as [l|].
    + destruct I9 as (J1 & J2 & J3 & J4 & J5). repeat split.
      * lia.
      * now rewrite <- (stat_cls _ _ (Hg l)).
      * pose proof (Hc l) as Hcl. unfold core, dyn in Hcl. congruence.
      * now rewrite <- (stat_parent _ _ (Hg l)).
      * rewrite <- (stat_cls _ _ (Hg j)). apply J5. lia.
      * rewrite <- (stat_parent _ _ (Hg j)). apply J5. lia.
    + rewrite <- Hl. destruct I9 as [J|[J1 J2]]; [now left|]. right. split.
      * pose proof (Hc (length h - 1)) as Hcl. unfold core, dyn in Hcl. congruence.
      * now rewrite <- (stat_parent _ _ (Hg _)).
Qed.

(** one appended node with a benign update of an earlier one *)
Section Append.
  Context (h : heap) (n : node) (p : nat) (g : node -> node) (Hp : p < length h) (Hb : benign g).
  Definition app_upd := upd (h ++ [n]) p g.
  Lemma app_upd_stat : map stat app_upd = map stat (h ++ [n]).
  Proof. now apply map_stat_upd. Qed.
  Lemma app_upd_length : length app_upd = S (length h).
  Proof. unfold app_upd. rewrite upd_length, app_length. apply Nat.add_1_r. Qed.
  Lemma app_upd_new : hget app_upd (length h) = n.
  Proof. unfold app_upd. rewrite hget_upd_neq, hget_app_r by lia. reflexivity. Qed.
  Lemma app_upd_at : hget app_upd p = g (hget h p).
  Proof. unfold app_upd. rewrite hget_upd_eq, hget_app_l; auto. rewrite app_length. cbn. lia. Qed.
  Lemma app_upd_old j : j < length h -> j <> p -> hget app_upd j = hget h j.
  Proof. intros. unfold app_upd. rewrite hget_upd_neq, hget_app_l; auto. Qed.
  Lemma app_upd_olds j : j < length h -> stat (hget app_upd j) = stat (hget h j).
  Proof.
    intros. destruct (Nat.eq_dec j p) as [->|]; [rewrite app_upd_at; apply Hb|now rewrite app_upd_old].
  Qed.
  Lemma app_upd_climb k s : SInv h -> s < length h -> climb app_upd k s = climb h k s.
  Proof. intros HS Hs. rewrite (climb_stat _ _ _ _ app_upd_stat). now apply climb_app. Qed.
End Append.

(** the parts of the invariant that a new non-section instruction does not touch *)
Lemma Inv_append_sec h n p g ls :
  p < length h -> benign g -> SInv h -> ls < length h -> ncls n <> CSec ->
  sec_like (hget h ls) ->
  (forall j, ls < j < length h -> ncls (hget h j) <> CSec) ->
  (forall k a, climb h k ls = Some a ->
             forall j, a < j < length h -> ncls (hget h j) = CSec ->
               odepth (hget h a) < odepth (hget h j)) ->
  let h' := app_upd h n p g in
  ls < length h' /\ sec_like (hget h' ls) /\
  (forall j, ls < j < length h' -> ncls (hget h' j) <> CSec) /\
  odepth (hget h' ls) = odepth (hget h ls) /\
  (forall k a, climb h' k ls = Some a ->
             forall j, a < j < length h' -> ncls (hget h' j) = CSec ->
               odepth (hget h' a) < odepth (hget h' j)).
Proof.
  intros Hp Hb HS Hls Hn Hsl Hlast Hopen h'.
  assert (length h' = S (length h)) as Hlen by apply app_upd_length.
  repeat split.
  - lia.
  - eapply sec_like_stat; [symmetry; now apply app_upd_olds|assumption].
  - intros j Hj. rewrite Hlen in Hj. destruct (Nat.eq_dec j (length h)) as [->|Hne].
    + unfold h'. now rewrite app_upd_new.
    + unfold h'. rewrite (stat_cls _ _ (app_upd_olds h n p g Hp Hb j ltac:(lia))). apply Hlast. lia.
  - apply odepth_stat. now apply app_upd_olds.
  - intros k a Ha j Hj Hc. unfold h' in Ha. rewrite app_upd_climb in Ha by assumption.
    pose proof (climb_le _ _ _ _ HS Hls Ha) as Hle. rewrite Hlen in Hj.
    destruct (Nat.eq_dec j (length h)) as [->|Hne].
    + unfold h' in Hc. rewrite app_upd_new in Hc by assumption. contradiction.
    + unfold h' in *. rewrite (odepth_stat _ _ (app_upd_olds h n p g Hp Hb a ltac:(lia))).
      rewrite (odepth_stat _ _ (app_upd_olds h n p g Hp Hb j ltac:(lia))).
      eapply Hopen; eauto; [lia|].
      now rewrite <- (stat_cls _ _ (app_upd_olds h n p g Hp Hb j ltac:(lia))).
Qed.

Lemma SInv_append h n p g :
  SInv h -> benign g -> n_parent n = Some p -> p < length h -> placed (h ++ [n]) p (length h) ->
  SInv (app_upd h n p g).
Proof.
  intros HS Hb Hpar Hp Hpl. eapply SInv_stat; [symmetry; now apply app_upd_stat|].
  now apply SInv_app with p.
Qed.

Lemma sec_like_not_elem n : sec_like n -> ncls n <> CElem.
Proof. intros [H|H]; rewrite H; discriminate. Qed.

Lemma Inv_new_element h ls d lce lnse n lce' lnse' :
  Inv h ls d lce lnse -> fresh n -> ncls n = CElem -> n_parent n = Some ls -> type_ok n ->
  match lce' with Some c => c = length h /\ continuable n | None => ~ continuable n end ->
  match lnse' with Some l => l = length h /\ n_type n <> MULTILINE_FIELD_BEGIN
                 | None => n_type n = MULTILINE_FIELD_BEGIN end ->
  Inv (add_element (h ++ [n]) ls (length h)) ls d lce' lnse'.
Proof.
  intros [I1 I2 I3 I4 I5 I6 I7 I8 I9] Hf Hc Hpar Hty Hlce Hlnse.
  unfold add_element, hupd.
  set (g := fun n0 => set_elements (n_elements n0 ++ [length h]) n0).
  assert (benign g) as Hb by (intro; reflexivity).
  change (upd (h ++ [n]) ls g) with (app_upd h n ls g).
  destruct (Inv_append_sec h n ls g ls) as (A1 & A2 & A3 & A4 & A5); auto; [congruence|].
  constructor; auto.
  - apply SInv_append; auto. unfold placed. rewrite hget_app_r, Hc. split.
    + now rewrite hget_app_l.
    + intros j Hj. rewrite hget_app_l by lia. apply I5. lia.
  - apply DInv_add_element; auto. now apply sec_like_not_elem.
  - congruence.
  - destruct lce' as [c|].
    + destruct Hlce as [-> Hco]. rewrite app_upd_length, app_upd_new by assumption. auto.
    + rewrite app_upd_length. cbn. rewrite Nat.sub_0_r, app_upd_new by assumption. assumption.
  - destruct lnse' as [l|].
    + destruct Hlnse as [-> Hne]. rewrite app_upd_length, app_upd_new by assumption.
      repeat split; auto; try lia.
    + right. rewrite app_upd_length. cbn. rewrite Nat.sub_0_r, app_upd_new by assumption. auto.
Qed.

(** children of a list are items, children of a fieldset are entries *)
Lemma no_entries h l j : DInv h -> l < length h -> n_entries (hget h l) = None ->
  j < length h -> n_parent (hget h j) = Some l -> ncls (hget h j) <> CEntry.
Proof.
  intros HD Hl He Hj Hp Hc. pose proof (d_entries _ HD l Hl) as H. rewrite He in H. cbn in H.
  assert (In j (ids (entry_of l) h)) as Hin.
  { apply in_ids. split; [assumption|]. unfold entry_of, is_cls. rewrite (has_parent_self _ _ Hp), Hc. reflexivity. }
  rewrite <- H in Hin. destruct Hin.
Qed.
Lemma no_items h l j : DInv h -> l < length h -> n_items (hget h l) = None ->
  j < length h -> n_parent (hget h j) = Some l -> ncls (hget h j) <> CItem.
Proof.
  intros HD Hl He Hj Hp Hc. pose proof (d_items _ HD l Hl) as H. rewrite He in H. cbn in H.
  assert (In j (ids (item_of l) h)) as Hin.
  { apply in_ids. split; [assumption|]. unfold item_of, is_cls. rewrite (has_parent_self _ _ Hp), Hc. reflexivity. }
  rewrite <- H in Hin. destruct Hin.
Qed.

Lemma Inv_new_item h ls d lce lst n :
  Inv h ls d lce (Some lst) -> fresh n -> n_type n = LIST_ITEM -> n_parent n = Some lst -> type_ok n ->
  takes_items (n_type (hget h lst)) = true ->
  Inv (hupd (h ++ [n]) lst (add_item (length h))) ls d (Some (length h)) (Some lst).
Proof.
  intros [I1 I2 I3 I4 I5 I6 I7 I8 I9] Hf Ht Hpar Hty Htk.
  destruct I9 as (J1 & J2 & J3 & J4 & J5).
  assert (ncls n = CItem) as Hc by (unfold ncls; now rewrite Ht).
  pose proof (benign_add_item (length h)) as Hb. unfold hupd.
  change (upd (h ++ [n]) lst (add_item (length h))) with (app_upd h n lst (add_item (length h))).
  destruct (Inv_append_sec h n lst (add_item (length h)) ls) as (A1 & A2 & A3 & A4 & A5); auto; [congruence|].
  constructor; auto.
  - apply SInv_append; auto. unfold placed. rewrite hget_app_r, Hc. split.
    + now rewrite hget_app_l.
    + intros j Hj. rewrite hget_app_l by lia. destruct (J5 j) as [Hk Hjp]; [lia|].
      split; [|assumption]. destruct Hk as [|Hk]; [assumption|]. exfalso. revert Hk.
      apply (no_entries h lst); auto; [|lia].
      pose proof (d_type _ I2 lst J1) as Hlt. unfold type_ok, plain_node in Hlt.
      destruct (n_type (hget h lst)); try discriminate; tauto.
  - apply DInv_add_item; auto.
  - congruence.
  - rewrite app_upd_length, app_upd_new by assumption. split; [reflexivity|]. unfold continuable. now rewrite Ht.
  - rewrite app_upd_length. rewrite app_upd_at by assumption.
    unfold ncls at 1. repeat split; try lia.
    + unfold add_item. destruct (n_type (hget h lst)) eqn:E; try discriminate; cbn; rewrite ?E; reflexivity.
    + unfold add_item. destruct (n_type (hget h lst)) eqn:E; try discriminate; cbn; rewrite ?E; discriminate.
    + rewrite (stat_parent _ _ (Hb (hget h lst))). assumption.
    + destruct (Nat.eq_dec j (length h)) as [->|Hne]; [left; now rewrite app_upd_new|].
      rewrite app_upd_old by lia. apply J5. lia.
    + destruct (Nat.eq_dec j (length h)) as [->|Hne]; [now rewrite app_upd_new|].
      rewrite app_upd_old by lia. apply J5. lia.
Qed.

Lemma Inv_new_entry h ls d lce lst n :
  Inv h ls d lce (Some lst) -> fresh n -> n_type n = FIELDSET_ENTRY -> n_parent n = Some lst -> type_ok n ->
  takes_entries (n_type (hget h lst)) = true ->
  Inv (hupd (h ++ [n]) lst (add_entry (length h))) ls d (Some (length h)) (Some lst).
Proof.
  intros [I1 I2 I3 I4 I5 I6 I7 I8 I9] Hf Ht Hpar Hty Htk.
  destruct I9 as (J1 & J2 & J3 & J4 & J5).
  assert (ncls n = CEntry) as Hc by (unfold ncls; now rewrite Ht).
  pose proof (benign_add_entry (length h)) as Hb. unfold hupd.
  change (upd (h ++ [n]) lst (add_entry (length h))) with (app_upd h n lst (add_entry (length h))).
  destruct (Inv_append_sec h n lst (add_entry (length h)) ls) as (A1 & A2 & A3 & A4 & A5); auto; [congruence|].
  constructor; auto.
  - apply SInv_append; auto. unfold placed. rewrite hget_app_r, Hc. split.
    + now rewrite hget_app_l.
    + intros j Hj. rewrite hget_app_l by lia. destruct (J5 j) as [Hk Hjp]; [lia|].
      split; [|assumption]. destruct Hk as [Hk|]; [|assumption]. exfalso. revert Hk.
      apply (no_items h lst); auto; [|lia].
      pose proof (d_type _ I2 lst J1) as Hlt. unfold type_ok, plain_node in Hlt.
      destruct (n_type (hget h lst)); try discriminate; tauto.
  - apply DInv_add_entry; auto.
  - congruence.
  - rewrite app_upd_length, app_upd_new by assumption. split; [reflexivity|]. unfold continuable. now rewrite Ht.
  - rewrite app_upd_length. rewrite app_upd_at by assumption.
    unfold ncls at 1. repeat split; try lia.
    + unfold add_entry. destruct (n_type (hget h lst)) eqn:E; try discriminate; cbn; rewrite ?E; reflexivity.
    + unfold add_entry. destruct (n_type (hget h lst)) eqn:E; try discriminate; cbn; rewrite ?E; discriminate.
    + rewrite (stat_parent _ _ (Hb (hget h lst))). assumption.
    + destruct (Nat.eq_dec j (length h)) as [->|Hne]; [right; now rewrite app_upd_new|].
      rewrite app_upd_old by lia. apply J5. lia.
    + destruct (Nat.eq_dec j (length h)) as [->|Hne]; [now rewrite app_upd_new|].
      rewrite app_upd_old by lia. apply J5. lia.
Qed.

(** a continuation *)
Lemma cont_type_ok c n : continuable n -> type_ok n -> type_ok (cont_upd c n) /\ continuable (cont_upd c n)
  /\ (n_type (cont_upd c n) = n_type n \/ n_type n = EMPTY_ELEMENT /\ n_type (cont_upd c n) = FIELD).
Proof.
  unfold continuable, type_ok, plain_node, cont_upd. intros Hc [Hne Ht].
  destruct (n_type n) eqn:E; try contradiction; cbn;
    destruct (n_conts n) as [cs|] eqn:Ec; cbn; rewrite ?E; cbn; intuition (try congruence; try discriminate).
  all: try (destruct cs; discriminate).
Qed.

Lemma Inv_cont h ls d c lnse lf :
  Inv h ls d (Some c) lnse -> Inv (add_continuation h c lf) ls d (Some c) lnse.
Proof.
  intros [I1 I2 I3 I4 I5 I6 I7 I8 I9]. destruct I8 as [Hlen Hco].
  assert (c < length h) as Hlt by lia.
  change (add_continuation h c lf) with (hupd h c (cont_upd lf)).
  pose proof (benign_cont lf) as Hb.
  assert (map stat h = map stat (hupd h c (cont_upd lf))) as Hs by (symmetry; now apply map_stat_upd).
  pose proof (map_stat_length _ _ Hs) as Hl.
  assert (forall j, stat (hget h j) = stat (hget (hupd h c (cont_upd lf)) j)) as Hg by (intro; now apply map_stat_get).
  destruct (cont_type_ok lf _ Hco (d_type _ I2 c Hlt)) as (Hty & Hco' & Htt).
  assert (hget (hupd h c (cont_upd lf)) c = cont_upd lf (hget h c)) as Hat by now apply hget_upd_eq.
  constructor.
  - eapply SInv_stat; eauto.
  - apply DInv_upd; auto. intro x. unfold cont_upd. destruct (n_conts x); [auto|].
    destruct (itype_eqb (n_type x) EMPTY_ELEMENT); auto.
  - lia.
  - eapply sec_like_stat; [apply Hg|assumption].
  - intros j Hj. rewrite <- (stat_cls _ _ (Hg j)). apply I5. lia.
  - rewrite <- (odepth_stat _ _ (Hg ls)). assumption.
  - intros k a Ha j Hj Hcj. rewrite <- (climb_stat _ _ _ _ Hs) in Ha.
    rewrite <- (odepth_stat _ _ (Hg a)), <- (odepth_stat _ _ (Hg j)). eapply I7; eauto; [lia|].
    now rewrite (stat_cls _ _ (Hg j)).
  - rewrite Hat, <- Hl. auto.
  - destruct lnse as [l|].
    + destruct I9 as (J1 & J2 & J3 & J4 & J5). repeat split.
      * lia.
      * now rewrite <- (stat_cls _ _ (Hg l)).
      * destruct (Nat.eq_dec l c) as [->|Hne].
        -- rewrite Hat. destruct Htt as [->|[_ ->]]; [assumption|discriminate].
        -- unfold hupd. now rewrite hget_upd_neq by congruence.
      * now rewrite <- (stat_parent _ _ (Hg l)).
      * rewrite <- (stat_cls _ _ (Hg j)). apply J5. lia.
      * rewrite <- (stat_parent _ _ (Hg j)). apply J5. lia.
    + rewrite <- Hl. destruct I9 as [J|[J1 J2]]; [now left|]. exfalso.
      replace (length h - 1) with c in J1 by lia. unfold continuable in Hco. now rewrite J1 in Hco.
Qed.

(** a section of a depth that does not skip a layer *)
Lemma section_parent_spec st nd :
  AInv st -> 1 <= nd -> nd <= a_depth st + 1 ->
  exists p, section_parent st nd = Some (Some p) /\
            climb (a_heap st) (a_depth st + 1 - nd) (a_lsec st) = Some p /\
            S (odepth (hget (a_heap st) p)) = nd /\ sec_like (hget (a_heap st) p) /\ p < length (a_heap st).
Proof.
  intros [I1 I2 I3 I4 I5 I6 I7 I8 I9] H1 H2.
  destruct (climb_sec (a_heap st) (a_lsec st) (a_depth st + 1 - nd)) as (p & Hp & Ho & Hsl & Hlt); auto; [lia|].
  exists p. split; [|split; [assumption|split; [lia|auto]]].
  unfold section_parent. destruct (Nat.eqb_spec nd (a_depth st + 1)) as [->|Hne].
  - rewrite Nat.sub_diag in Hp. cbn in Hp. congruence.
  - destruct (Nat.eqb_spec nd (a_depth st)) as [->|Hne'].
    + replace (a_depth st + 1 - a_depth st) with 1 in Hp by lia. cbn in Hp.
      destruct (n_parent (hget (a_heap st) (a_lsec st))); congruence.
    + destruct (Nat.ltb_spec nd (a_depth st)) as [Hl|]; [|lia].
      destruct (climb_sec (a_heap st) (a_lsec st) (a_depth st - nd)) as (q & Hq & _); auto; [lia|].
      rewrite Hq. replace (a_depth st + 1 - nd) with (a_depth st - nd + 1) in Hp by lia.
      rewrite (climb_add _ _ _ _ _ Hq) in Hp. cbn in Hp. destruct (n_parent (hget (a_heap st) q)); congruence.
Qed.
Lemma section_parent_skip st nd :
  a_depth st + 1 < nd <-> section_parent st nd = None.
Proof.
  unfold section_parent. destruct (Nat.eqb_spec nd (a_depth st + 1)); [split; [lia|discriminate]|].
  destruct (Nat.eqb_spec nd (a_depth st)); [split; [lia|discriminate]|].
  destruct (Nat.ltb_spec nd (a_depth st)); [|split; [reflexivity|lia]].
  destruct (climb _ _ _); split; try lia; discriminate.
Qed.

Lemma Inv_new_section h ls d lce lnse n p k :
  Inv h ls d lce lnse -> fresh n -> n_type n = SECTION -> n_parent n = Some p -> type_ok n ->
  p < length h -> sec_like (hget h p) -> climb h k ls = Some p -> odepth n = S (odepth (hget h p)) ->
  Inv (add_element (h ++ [n]) p (length h)) (length h) (odepth n) None None.
Proof.
  intros [I1 I2 I3 I4 I5 I6 I7 I8 I9] Hf Ht Hpar Hty Hp Hsl Hk Hod.
  assert (ncls n = CSec) as Hc by (unfold ncls; now rewrite Ht).
  unfold add_element, hupd.
  set (g := fun n0 => set_elements (n_elements n0 ++ [length h]) n0).
  assert (benign g) as Hb by (intro; reflexivity).
  change (upd (h ++ [n]) p g) with (app_upd h n p g).
  assert (SInv (app_upd h n p g)) as HS'.
  { apply SInv_append; auto. unfold placed. rewrite hget_app_r, Hc. rewrite hget_app_l by assumption.
    repeat split; auto. intros j Hj. rewrite hget_app_l by lia. intro Hcj. rewrite Hod.
    apply (I7 k p Hk j Hj) in Hcj. lia. }
  constructor; auto.
  - apply DInv_add_element; auto. now apply sec_like_not_elem.
  - rewrite app_upd_length. lia.
  - rewrite app_upd_new by assumption. now right.
  - intros j Hj. rewrite app_upd_length in Hj. lia.
  - now rewrite app_upd_new by assumption.
  - intros m a Ha j Hj Hcj. rewrite app_upd_length in Hj.
    destruct m as [|m].
    { cbn in Ha. injection Ha as <-. lia. }
    cbn [climb] in Ha. rewrite app_upd_new, Hpar in Ha by assumption.
    rewrite app_upd_climb in Ha by assumption.
    pose proof (climb_le _ _ _ _ I1 Hp Ha) as Hle.
    rewrite (odepth_stat _ _ (app_upd_olds h n p g Hp Hb a ltac:(lia))).
    destruct (Nat.eq_dec j (length h)) as [->|Hne].
    + rewrite app_upd_new by assumption. rewrite Hod.
      destruct (le_lt_dec m (odepth (hget h p))) as [Hm|Hm].
      * destruct (climb_sec h p m) as (a' & Ha' & Hoa & _); auto. rewrite Ha in Ha'. injection Ha' as <-. lia.
      * rewrite (climb_none h p m) in Ha by auto. discriminate.
    + rewrite (odepth_stat _ _ (app_upd_olds h n p g Hp Hb j ltac:(lia))).
      apply (I7 (k + m) a).
      * now rewrite (climb_add _ _ _ _ _ Hk).
      * lia.
      * now rewrite <- (stat_cls _ _ (app_upd_olds h n p g Hp Hb j ltac:(lia))).
  - rewrite app_upd_length. cbn. rewrite Nat.sub_0_r, app_upd_new by assumption. unfold continuable. now rewrite Ht.
  - left. now rewrite app_upd_length.
Qed.

(** marking the enclosing sections always comes to the document *)
Lemma mark_deep_total fuel h p : SInv h -> p < length h -> sec_like (hget h p) -> p < fuel ->
  mark_deep fuel h p <> None.
Proof.
  revert h p. induction fuel as [|f IH]; intros h p HS Hp Hsl Hf; [lia|]. cbn [mark_deep].
  destruct (itype_eqb (n_type (hget h p)) DOCUMENT) eqn:E; [discriminate|].
  destruct Hsl as [Hd|Hc].
  { exfalso. unfold ncls in Hd. destruct (n_type (hget h p)); discriminate. }
  destruct (Nat.eq_dec p 0) as [->|Hne]; [rewrite (s_doc _ HS) in Hc; discriminate|].
  destruct (s_node _ HS p) as (q & Hq & Hlt & Hpl); [lia|]. rewrite Hq.
  unfold placed in Hpl. rewrite Hc in Hpl. destruct Hpl as (Hsl & _).
  assert (map stat h = map stat (hupd h p (set_deep_resolve true))) as Hs
    by (symmetry; apply map_stat_upd, benign_deep).
  apply IH.
  - eapply SInv_stat; eauto.
  - rewrite <- (map_stat_length _ _ Hs). lia.
  - eapply sec_like_stat; [apply (map_stat_get _ _ q Hs)|assumption].
  - lia.
Qed.
