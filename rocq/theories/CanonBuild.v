(** CanonBuild: lists, fieldsets, sections and documents written canonically (lemmas for C14). *)
From Verif Require Import Base Regex Grammar Scan ScanProofs Types Analyzer TokenStep StepProofs ScanFacts HeapFacts AnalyzerLoop.
From Verif Require Import SpecText SpecTree SpecRead SpecApi SpecQuery Context SpecLoad SpecRaw SpecCanon CanonScan CanonRun.

Section Build.
Context (inp : text).
Notation runs := (runs inp).
Notation settled := (settled inp).
Notation grown := (grown inp).
Notation added := (added inp).

(** * Members of lists and fieldsets *)

Lemma member_get h n l f : l < length h -> let h' := hupd (h ++ [n]) l f in
  length h' = S (length h) /\ (forall i, i < length h -> i <> l -> hget h' i = hget h i) /\
  hget h' l = f (hget h l) /\ hget h' (length h) = n.
Proof.
  intros Hl h'. unfold h'. repeat split.
  - rewrite hupd_len. apply app1_len.
  - intros i Hi Hne. unfold hupd. rewrite hget_upd_neq by auto. now apply hget_app_l.
  - unfold hupd. rewrite hget_upd_eq by (rewrite app1_len; lia). now rewrite hget_app_l.
  - unfold hupd. rewrite hget_upd_neq by lia. apply hget_app_r.
Qed.

(** the last element is [l]; whatever is pending belongs to the next line *)
Definition in_element (st st' : ast) (l : nat) : Prop := quiet st st' /\ a_lnse st' = Some l.

(** members [xs] were added to [l], whose node is [f] of the members *)
Definition filled (h h' : heap) (l : nat) (f : list nat -> node) (xs : list raw_t) : Prop :=
  exists ids, length h <= length h' /\ (forall i, i < length h -> i <> l -> hget h' i = hget h i) /\
    hget h' l = f ids /\ Forall2 (settled h' (length h) (length h')) ids xs.

Definition open_items (n : node) : Prop := n_type n = EMPTY_ELEMENT /\ n_items n = None \/ n_type n = LIST.
Definition with_items (n : node) (ids : list nat) : node :=
  set_items (Some (match n_items n with Some l => l | None => [] end ++ ids)) (set_type LIST n).
Lemma add_item_is id n : open_items n -> add_item id n = with_items n [id].
Proof.
  unfold open_items, add_item, with_items. destruct n. cbn. intros [[-> ->]| ->]; [reflexivity|].
  now destruct n_items.
Qed.
Lemma with_items_open n ids : open_items (with_items n ids).
Proof. right. reflexivity. Qed.
Lemma with_items_more n a b : with_items (with_items n a) b = with_items n (a ++ b).
Proof. unfold with_items. cbn. now rewrite <- app_assoc. Qed.

Lemma run_item st l x r : item x -> a_comments st = None -> a_lnse st = Some l -> l < length (a_heap st) ->
  open_items (hget (a_heap st) l) -> forall d, at_pos inp (a_index st) (text_of (canon d x) ++ r) ->
  exists st', runs st st' /\ at_pos inp (a_index st') r /\ in_element st st' l /\
    filled (a_heap st) (a_heap st') l (with_items (hget (a_heap st) l)) [x].
Proof.
  intros [c v Hc Hv] Hn Hlast Hl Ho d Hp. cbn [canon] in Hp. rewrite text_of_app in Hp.
  destruct (run_comment inp c st _ Hc Hn Hp) as (st1 & R1 & P1 & (E1 & E2 & E3 & E4 & E5 & E6) & N1).
  rewrite text_of_cons in P1. cbn [text_of flat_map app] in P1. fold (app (U "-") (behind v)) in P1.
  change (45%N :: behind v) with (U "-" ++ behind v) in P1.
  pose proof (scan_item (a_index st1) v r Hv) as Hs. cbv zeta in Hs. pose proof (next_line _ _ _ _ P1) as P2.
  set (line := U "-" ++ behind v) in *. set (sp := span_behind (a_index st1 + 1) v) in *.
  set (n := item_node inp st1 (a_index st1 + length line) (a_index st1, a_index st1 + 1) sp l).
  assert (takes_items (n_type (hget (a_heap st1) l)) = true) as Ht.
  { rewrite E1. destruct Ho as [[-> _]| ->]; reflexivity. }
  eexists. split; [eapply runs_trans; [exact R1|eapply one_line; [exact P1|exact Hs|]]|].
  { cbn [tstep_tok]. rewrite E3, Hlast, Ht. fold n. reflexivity. }
  split; [exact P2|]. split; [repeat split; cbn; congruence|]. cbn [a_heap]. rewrite E1.
  destruct (member_get (a_heap st) n l (add_item (length (a_heap st))) Hl) as (L & O & M & N).
  exists [length (a_heap st)]. split; [lia|]. split; [exact O|]. split; [rewrite M; now apply add_item_is|].
  constructor; [|constructor]. intros h' E. assert (hget h' (length (a_heap st)) = n) as En by (rewrite E by lia; exact N).
  apply rt_item; [now rewrite En|apply N1; now rewrite En|]. apply vt_own; [now rewrite En|]. rewrite En.
  apply plain_joined; [discriminate|reflexivity|]. cbn [n item_node n_value set_comments set_value].
  destruct v as [v|]; [|reflexivity]. cbn. f_equal.
  apply (at_pos_sub inp (a_index st1) (U "- ") v (nl :: r)) in P1 as Pv. change (length (U "- ")) with 2 in Pv.
  replace (a_index st1 + 1 + 1) with (a_index st1 + 2) by lia. exact Pv.
Qed.

Lemma run_items xs : Forall item xs -> forall st l r, a_comments st = None -> a_lnse st = Some l -> l < length (a_heap st) ->
  open_items (hget (a_heap st) l) -> xs <> [] -> forall d, at_pos inp (a_index st) (text_of (flat_map (canon d) xs) ++ r) ->
  exists st', runs st st' /\ at_pos inp (a_index st') r /\ in_element st st' l /\
    filled (a_heap st) (a_heap st') l (with_items (hget (a_heap st) l)) xs.
Proof.
  induction 1 as [|x xs Hx Hxs IH]; intros st l r Hn Hlast Hl Ho Hne d Hp; [congruence|]. clear Hne.
  cbn [flat_map] in Hp. rewrite text_of_app in Hp.
  destruct (run_item st l x _ Hx Hn Hlast Hl Ho d Hp) as (st1 & R1 & P1 & ((Q1 & Q2 & Q3 & Q4 & Q5) & Q6) & (i1 & L1 & O1 & M1 & S1)).
  destruct xs as [|y ys] eqn:Ex.
  - exists st1. cbn [flat_map text_of app] in P1. split; [exact R1|]. split; [exact P1|]. split; [repeat split; assumption|]. exists i1. auto.
  - destruct (IH st1 l r Q1 Q6 ltac:(lia)) with (d := d) as (st2 & R2 & P2 & ((T1 & T2 & T3 & T4 & T5) & T6) & (i2 & L2 & O2 & M2 & S2)); auto.
    { rewrite M1. apply with_items_open. } { discriminate. }
    exists st2. split; [eapply runs_trans; eassumption|]. split; [exact P2|]. split; [repeat split; congruence|].
    exists (i1 ++ i2). split; [lia|]. split; [|split].
    + intros i Hi Hne. rewrite O2 by lia. now apply O1.
    + rewrite M2, M1. apply with_items_more.
    + change (x :: y :: ys) with ([x] ++ y :: ys). apply Forall2_app.
      * eapply settled_all_wide; [exact S1|lia|lia|]. intros i Hi. apply O2; lia.
      * eapply settled_all_wide; [exact S2|lia|lia|]. auto.
Qed.

Definition open_entries (n : node) : Prop := n_type n = EMPTY_ELEMENT /\ n_entries n = None \/ n_type n = FIELDSET.
Definition with_entries (n : node) (ids : list nat) : node :=
  set_entries (Some (match n_entries n with Some l => l | None => [] end ++ ids)) (set_type FIELDSET n).
Lemma add_entry_is id n : open_entries n -> add_entry id n = with_entries n [id].
Proof.
  unfold open_entries, add_entry, with_entries. destruct n. cbn. intros [[-> ->]| ->]; [reflexivity|].
  now destruct n_entries.
Qed.
Lemma with_entries_open n ids : open_entries (with_entries n ids).
Proof. right. reflexivity. Qed.
Lemma with_entries_more n a b : with_entries (with_entries n a) b = with_entries n (a ++ b).
Proof. unfold with_entries. cbn. now rewrite <- app_assoc. Qed.

Lemma run_entry st l x r : entry x -> a_comments st = None -> a_lnse st = Some l -> l < length (a_heap st) ->
  open_entries (hget (a_heap st) l) -> forall d, at_pos inp (a_index st) (text_of (canon d x) ++ r) ->
  exists st', runs st st' /\ at_pos inp (a_index st') r /\ in_element st st' l /\
    filled (a_heap st) (a_heap st') l (with_entries (hget (a_heap st) l)) [x].
Proof.
  intros [c k v Hc Hk Hv] Hn Hlast Hl Ho d Hp. cbn [canon] in Hp. rewrite text_of_app in Hp.
  destruct (run_comment inp c st _ Hc Hn Hp) as (st1 & R1 & P1 & (E1 & E2 & E3 & E4 & E5 & E6) & N1).
  rewrite text_of_cons in P1. cbn [text_of flat_map app] in P1.
  destruct (scan_equals inp (a_index st1) k v r Hk Hv) as (ks & Hs & Hr). pose proof (next_line _ _ _ _ P1) as P2.
  set (line := written_key k ++ U " =" ++ behind v) in *. set (q := a_index st1 + length (written_key k) + 1) in *. set (sp := span_behind (q + 1) v) in *.
  set (n := entry_node inp st1 (a_index st1 + length line) ks (q, q + 1) sp l).
  assert (takes_entries (n_type (hget (a_heap st1) l)) = true) as Ht.
  { rewrite E1. destruct Ho as [[-> _]| ->]; reflexivity. }
  eexists. split; [eapply runs_trans; [exact R1|eapply one_line; [exact P1|exact Hs|]]|].
  { cbn [tstep_tok]. rewrite E3, Hlast, Ht. fold n. reflexivity. }
  split; [exact P2|]. split; [repeat split; cbn; congruence|]. cbn [a_heap]. rewrite E1.
  destruct (member_get (a_heap st) n l (add_entry (length (a_heap st))) Hl) as (L & O & M & N).
  exists [length (a_heap st)]. split; [lia|]. split; [exact O|]. split; [rewrite M; now apply add_entry_is|].
  constructor; [|constructor]. intros h' E. assert (hget h' (length (a_heap st)) = n) as En by (rewrite E by lia; exact N).
  apply rt_entry; [now rewrite En|apply N1; now rewrite En| |].
  { rewrite En. cbn [n entry_node n_key set_comments set_key]. f_equal. apply (Hr ((U " =" ++ behind v) ++ nl :: r)).
    unfold line in P1. rewrite <- !app_assoc in *. exact P1. }
  apply vt_own; [now rewrite En|]. rewrite En. apply plain_joined; [discriminate|reflexivity|].
  cbn [n entry_node n_value set_comments set_key set_value]. destruct v as [v|]; [|reflexivity]. cbn. f_equal.
  assert (at_pos inp (a_index st1) ((written_key k ++ U " = ") ++ v ++ nl :: r)) as P3.
  { unfold line in P1. cbn [behind] in P1. rewrite <- !app_assoc in *. exact P1. }
  apply at_pos_sub in P3. rewrite app_length in P3. change (length (U " = ")) with 3 in P3. unfold q.
  replace (a_index st1 + length (written_key k) + 1 + 1 + 1) with (a_index st1 + (length (written_key k) + 3)) by lia. exact P3.
Qed.

Lemma run_entries xs : Forall entry xs -> forall st l r, a_comments st = None -> a_lnse st = Some l -> l < length (a_heap st) ->
  open_entries (hget (a_heap st) l) -> xs <> [] -> forall d, at_pos inp (a_index st) (text_of (flat_map (canon d) xs) ++ r) ->
  exists st', runs st st' /\ at_pos inp (a_index st') r /\ in_element st st' l /\
    filled (a_heap st) (a_heap st') l (with_entries (hget (a_heap st) l)) xs.
Proof.
  induction 1 as [|x xs Hx Hxs IH]; intros st l r Hn Hlast Hl Ho Hne d Hp; [congruence|]. clear Hne.
  cbn [flat_map] in Hp. rewrite text_of_app in Hp.
  destruct (run_entry st l x _ Hx Hn Hlast Hl Ho d Hp) as (st1 & R1 & P1 & ((Q1 & Q2 & Q3 & Q4 & Q5) & Q6) & (i1 & L1 & O1 & M1 & S1)).
  destruct xs as [|y ys] eqn:Ex.
  - exists st1. cbn [flat_map text_of app] in P1. split; [exact R1|]. split; [exact P1|]. split; [repeat split; assumption|]. exists i1. auto.
  - destruct (IH st1 l r Q1 Q6 ltac:(lia)) with (d := d) as (st2 & R2 & P2 & ((T1 & T2 & T3 & T4 & T5) & T6) & (i2 & L2 & O2 & M2 & S2)); auto.
    { rewrite M1. apply with_entries_open. } { discriminate. }
    exists st2. split; [eapply runs_trans; eassumption|]. split; [exact P2|]. split; [repeat split; congruence|].
    exists (i1 ++ i2). split; [lia|]. split; [|split].
    + intros i Hi Hne. rewrite O2 by lia. now apply O1.
    + rewrite M2, M1. apply with_entries_more.
    + change (x :: y :: ys) with ([x] ++ y :: ys). apply Forall2_app.
      * eapply settled_all_wide; [exact S1|lia|lia|]. intros i Hi. apply O2; lia.
      * eapply settled_all_wide; [exact S2|lia|lia|]. auto.
Qed.


Lemma run_comment_added c st r xs ls : comment_fine c -> a_comments st = None -> at_pos inp (a_index st) (text_of (comment_lines c ++ ls) ++ r) ->
  (forall st1, same_but_comments st st1 -> notes (a_comments st1) c -> at_pos inp (a_index st1) (text_of ls ++ r) -> added st1 r xs) ->
  added st r xs.
Proof.
  intros Hc Hn Hp H. rewrite text_of_app in Hp.
  destruct (run_comment inp c st _ Hc Hn Hp) as (st1 & R1 & P1 & S1 & N1). pose proof S1 as (E1 & E2 & E3 & E4 & E5 & E6).
  destruct (H st1 S1 N1 P1) as (st2 & R2 & P2 & (Q1 & Q2 & Q3 & Q4 & Q5) & G). exists st2.
  split; [eapply runs_trans; eassumption|]. split; [exact P2|]. split; [repeat split; congruence|]. now rewrite E1, E4 in G.
Qed.

Lemma run_list st c k xs r d : trimmed k -> notes (a_comments st) c -> a_lsec st < length (a_heap st) -> xs <> [] -> Forall item xs ->
  at_pos inp (a_index st) (text_of ((written_key k ++ U ":") :: flat_map (canon d) xs) ++ r) -> added st r [RawList c k xs].
Proof.
  intros Hk Hc Hl Hne Hxs Hp. rewrite text_of_cons in Hp.
  destruct (run_colon inp st k None (text_of (flat_map (canon d) xs) ++ r) c Hk I Hc Hl) as (st1 & n & R & P & Q & Ls & E & T & K & V & C & Co & It & En & M & X).
  { cbn [behind]. now rewrite app_nil_r. }
  destruct (add_element_get (a_heap st) n (a_lsec st) Hl) as (L & O & Pp & Nn). rewrite <- E in L, O, Pp, Nn.
  pose proof Q as (Q1 & Q2 & Q3 & Q4 & Q5).
  destruct (run_items xs Hxs st1 (length (a_heap st)) r) with (d := d) as (st2 & R2 & P2 & ((T1 & T2 & T3 & T4 & T5) & T6) & (ids & L2 & O2 & M2 & S2)); auto; [lia| |].
  { rewrite Nn. left. split; assumption. }
  exists st2. split; [eapply runs_trans; eassumption|]. split; [exact P2|]. split; [repeat split; congruence|].
  exists [length (a_heap st)]. split; [lia|]. split; [intros i Hi Hne'; rewrite O2 by lia; now apply O|].
  split; [rewrite O2 by lia; exact Pp|]. constructor; [|constructor]. intros h' E'.
  assert (hget h' (length (a_heap st)) = with_items n ids) as En' by (rewrite E' by lia; rewrite M2, Nn; reflexivity).
  eapply rt_list with (l := ids); [now rewrite En'|apply Hc; now rewrite En'|now rewrite En'| |].
  - assert (own_items h' (length (a_heap st)) = ids) as <-.
    { unfold own_items. rewrite En'. cbn. now rewrite It. }
    apply lt_own. split; rewrite En'; assumption.
  - eapply settled_trees; [exact S2|]. intros i Hi. apply E'. lia.
Qed.

Lemma run_fieldset st c k xs r d : trimmed k -> notes (a_comments st) c -> a_lsec st < length (a_heap st) -> xs <> [] -> Forall entry xs ->
  at_pos inp (a_index st) (text_of ((written_key k ++ U ":") :: flat_map (canon d) xs) ++ r) -> added st r [RawFieldset c k xs].
Proof.
  intros Hk Hc Hl Hne Hxs Hp. rewrite text_of_cons in Hp.
  destruct (run_colon inp st k None (text_of (flat_map (canon d) xs) ++ r) c Hk I Hc Hl) as (st1 & n & R & P & Q & Ls & E & T & K & V & C & Co & It & En & M & X).
  { cbn [behind]. now rewrite app_nil_r. }
  destruct (add_element_get (a_heap st) n (a_lsec st) Hl) as (L & O & Pp & Nn). rewrite <- E in L, O, Pp, Nn.
  pose proof Q as (Q1 & Q2 & Q3 & Q4 & Q5).
  destruct (run_entries xs Hxs st1 (length (a_heap st)) r) with (d := d) as (st2 & R2 & P2 & ((T1 & T2 & T3 & T4 & T5) & T6) & (ids & L2 & O2 & M2 & S2)); auto; [lia| |].
  { rewrite Nn. left. split; assumption. }
  exists st2. split; [eapply runs_trans; eassumption|]. split; [exact P2|]. split; [repeat split; congruence|].
  exists [length (a_heap st)]. split; [lia|]. split; [intros i Hi Hne'; rewrite O2 by lia; now apply O|].
  split; [rewrite O2 by lia; exact Pp|]. constructor; [|constructor]. intros h' E'.
  assert (hget h' (length (a_heap st)) = with_entries n ids) as En' by (rewrite E' by lia; rewrite M2, Nn; reflexivity).
  eapply rt_fieldset with (l := ids); [now rewrite En'|apply Hc; now rewrite En'|now rewrite En'| |].
  - assert (own_entries h' (length (a_heap st)) = ids) as <-.
    { unfold own_entries. rewrite En'. cbn. now rewrite En. }
    apply le_own. split; rewrite En'; assumption.
  - eapply settled_trees; [exact S2|]. intros i Hi. apply E'. lia.
Qed.


Lemma run_element st x r d : element x -> a_comments st = None -> a_lsec st < length (a_heap st) ->
  at_pos inp (a_index st) (text_of (canon d x) ++ r) -> added st r [x].
Proof.
  intros Hx Hn Hl Hp. destruct Hx as [c k Hc Hk|c k v Hc Hk|c k xs Hc Hk Hne Hxs|c k xs Hc Hk Hne Hxs]; cbn [canon] in Hp;
    (eapply run_comment_added; [exact Hc|exact Hn|exact Hp|]); intros st1 (E1 & E2 & E3 & E4 & E5 & E6) N1 P1; rewrite <- E1, <- E4 in Hl.
  - rewrite text_of_cons in P1. now apply run_empty.
  - now apply run_field.
  - eapply run_list; eassumption.
  - eapply run_fieldset; eassumption.
Qed.

Lemma run_elements els : Forall element els -> forall st r d, a_comments st = None -> a_lsec st < length (a_heap st) ->
  at_pos inp (a_index st) (text_of (flat_map (canon d) els) ++ r) -> added st r els.
Proof.
  induction 1 as [|x xs Hx Hxs IH]; intros st r d Hn Hl Hp.
  - exists st. split; [constructor|]. split; [exact Hp|]. split; [repeat split; assumption|]. apply grown_nil.
  - cbn [flat_map] in Hp. rewrite text_of_app in Hp.
    destruct (run_element st x _ d Hx Hn Hl Hp) as (st1 & R1 & P1 & (Q1 & Q2 & Q3 & Q4 & Q5) & G1).
    destruct (IH st1 r d Q1) as (st2 & R2 & P2 & (T1 & T2 & T3 & T4 & T5) & G2); [rewrite Q2; apply grown_length in G1; lia|exact P1|].
    exists st2. split; [eapply runs_trans; eassumption|]. split; [exact P2|]. split; [repeat split; congruence|].
    rewrite Q2 in G2. change (x :: xs) with ([x] ++ xs). eapply grown_trans; eassumption.
Qed.

(** * Sections *)

(** section [p] of depth [d] is the last one or around it *)
Definition open_at (st : ast) (d p : nat) : Prop :=
  d <= a_depth st /\ p < length (a_heap st) /\ climb (a_heap st) (a_depth st - d) (a_lsec st) = Some p.

Lemma climb_same h h' k s a : climb h k s = Some a -> (forall i, i < length h -> n_parent (hget h' i) = n_parent (hget h i)) -> climb h' k s = Some a.
Proof.
  intros H E. revert s H. induction k as [|k IH]; intros s H; cbn [climb] in *; [assumption|].
  destruct (n_parent (hget h s)) as [q|] eqn:Eq; [|discriminate].
  assert (s < length h) as Hs.
  { destruct (Nat.lt_ge_cases s (length h)); [assumption|]. rewrite hget_out in Eq by assumption. discriminate. }
  rewrite E, Eq by assumption. now apply IH.
Qed.
Lemma climb_plus h k k' s a : climb h k s = Some a -> climb h (k + k') s = climb h k' a.
Proof.
  revert s. induction k as [|k IH]; intros s; cbn [climb Nat.add]; [now intros [= ->]|].
  destruct (n_parent (hget h s)); [apply IH|discriminate].
Qed.
Lemma climb_last h k s a : climb h (S k) s = Some a -> exists q, climb h k s = Some q /\ n_parent (hget h q) = Some a.
Proof.
  revert s. induction k as [|k IH]; intros s H.
  - exists s. split; [reflexivity|]. cbn in H. destruct (n_parent (hget h s)); [exact H|discriminate].
  - cbn [climb] in *. destruct (n_parent (hget h s)) as [p|]; [|discriminate]. apply IH. exact H.
Qed.

Lemma parent_at st d p : open_at st d p -> section_parent st (S d) = Some (Some p).
Proof.
  intros (Hd & _ & Hc). unfold section_parent. destruct (Nat.eqb_spec (S d) (a_depth st + 1)).
  - replace (a_depth st - d) with 0 in Hc by lia. cbn in Hc. congruence.
  - destruct (Nat.eqb_spec (S d) (a_depth st)).
    + replace (a_depth st - d) with 1 in Hc by lia. cbn in Hc. destruct (n_parent _); congruence.
    + destruct (Nat.ltb_spec (S d) (a_depth st)); [|lia].
      replace (a_depth st - d) with (S (a_depth st - S d)) in Hc by lia. apply climb_last in Hc as (q & -> & ->). reflexivity.
Qed.

Lemma open_keep st st' d p : open_at st d p -> a_depth st' = a_depth st -> a_lsec st' = a_lsec st -> length (a_heap st) <= length (a_heap st') ->
  (forall i, i < length (a_heap st) -> n_parent (hget (a_heap st') i) = n_parent (hget (a_heap st) i)) -> open_at st' d p.
Proof. intros (H1 & H2 & H3) E1 E2 L E. unfold open_at. rewrite E1, E2. split; [lia|]. split; [lia|]. now apply (climb_same _ _ _ _ _ H3). Qed.

Lemma grown_parents h h' p xs i : grown h h' p xs -> i < length h -> n_parent (hget h' i) = n_parent (hget h i).
Proof. intros (ids & L & O & P & _) Hi. destruct (Nat.eq_dec i p) as [->|Hne]; [rewrite P; reflexivity|now rewrite O]. Qed.

Definition added_in (d p : nat) (st : ast) (r : text) (xs : list raw_t) : Prop :=
  exists st', runs st st' /\ at_pos inp (a_index st') r /\ a_comments st' = None /\ a_cs st' = a_cs st /\ a_cn st' = a_cn st /\
    grown (a_heap st) (a_heap st') p xs /\ (forall d' p', d' <= d -> open_at st d' p' -> open_at st' d' p').

Scheme section_min := Minimality for section Sort Prop
with sections_min := Minimality for sections Sort Prop.

Lemma run_sections subs : sections subs -> forall st d p r, open_at st d p -> a_comments st = None ->
  at_pos inp (a_index st) (text_of (flat_map (canon d) subs) ++ r) -> added_in d p st r subs.
Proof.
  revert subs. apply (sections_min
    (fun x => forall st d p r, open_at st d p -> a_comments st = None -> at_pos inp (a_index st) (text_of (canon d x) ++ r) -> added_in d p st r [x])
    (fun subs => forall st d p r, open_at st d p -> a_comments st = None ->
       at_pos inp (a_index st) (text_of (flat_map (canon d) subs) ++ r) -> added_in d p st r subs)).
  - intros c k els subs Hc Hk Hels _ IH st d p r Ho Hn Hp. cbn [canon] in Hp. rewrite text_of_app in Hp.
    destruct (run_comment inp c st _ Hc Hn Hp) as (st1 & R1 & P1 & (E1 & E2 & E3 & E4 & E5 & E6) & N1).
    assert (open_at st1 d p) as Ho1 by (unfold open_at in *; rewrite E1, E2, E4; exact Ho).
    rewrite text_of_cons in P1. rewrite flat_map_app, text_of_app in P1.
    set (rest := text_of (flat_map (canon (S d)) els) ++ text_of (flat_map (canon (S d)) subs) ++ r) in *.
    destruct (scan_section inp (a_index st1) d k rest Hk) as (ks & Hs & Hr). pose proof (next_line _ _ _ _ P1) as P2.
    set (line := repeat 35%N (S d) ++ 32%N :: written_key k) in *.
    set (n := section_node inp st1 (a_index st1 + length line) (a_index st1, a_index st1 + S d) ks None p).
    set (id := length (a_heap st)).
    assert (exists st2, tstep_tok inp st1 (TSection (a_index st1, a_index st1 + S d) ks None) (a_index st1 + length line) = SOk st2 /\
      a_index st2 = S (a_index st1 + length line) /\ a_comments st2 = None /\ a_depth st2 = S d /\ a_lsec st2 = id /\ a_cs st2 = a_cs st /\ a_cn st2 = a_cn st /\
      a_heap st2 = add_element (a_heap st ++ [n]) p id) as (st2 & Ht & I2 & C2 & D2 & L2 & S2 & N2 & H2).
    { eexists. cbn [tstep_tok fst snd]. replace (a_index st1 + S d - a_index st1) with (S d) by lia. rewrite (parent_at _ _ _ Ho1), E1.
      fold n. split; [reflexivity|]. repeat split; assumption. }
    rewrite <- I2 in P2. destruct Ho as (Hd & Hpl & Hcl).
    destruct (add_element_get (a_heap st) n p Hpl) as (L & O & Pp & Nn). fold id in L, O, Pp, Nn. rewrite <- H2 in L, O, Pp, Nn.
    assert (Hid : a_lsec st2 < length (a_heap st2)) by lia.
    destruct (run_elements els Hels st2 _ (S d) C2 Hid P2) as (st3 & R3 & P3 & (T1 & T2 & T3 & T4 & T5) & G3). rewrite L2 in G3.
    assert (Ho3 : open_at st3 (S d) id).
    { split; [lia|]. split; [apply grown_length in G3; lia|]. rewrite T3, D2, T2, L2, Nat.sub_diag. reflexivity. }
    destruct (IH st3 (S d) id r Ho3 T1 P3) as (st4 & R4 & P4 & U1 & U2 & U3 & G4 & K4).
    assert (G : grown (a_heap st2) (a_heap st4) id (els ++ subs)) by (eapply grown_trans; [lia|exact G3|exact G4]).
    exists st4. split.
    { eapply runs_trans; [exact R1|]. eapply runs_trans; [eapply one_line; [exact P1|exact Hs|exact Ht]|]. eapply runs_trans; eassumption. }
    split; [exact P4|]. split; [exact U1|]. split; [congruence|]. split; [congruence|]. split.
    + destruct G as (ids & Lg & Og & Pg & Sg). exists [id]. fold id. split; [lia|]. split; [intros i Hi Hne; rewrite Og by lia; now apply O|].
      split; [rewrite Og by lia; exact Pp|]. constructor; [|constructor]. intros h' E'.
      assert (hget h' id = set_elements ids n) as En.
      { rewrite E' by lia. rewrite Pg, Nn. reflexivity. }
      eapply rt_section with (l := ids); [now rewrite En|apply N1; now rewrite En| | |].
      * rewrite En. cbn [n section_node n_key set_elements set_comments set_key]. f_equal. apply (Hr (nl :: rest)).
        replace (a_index st1 + S d + 1) with (a_index st1 + length (repeat 35%N (S d) ++ [32%N])) by (rewrite app_length, repeat_length; cbn [length]; lia).
        apply at_pos_app. rewrite <- app_assoc. cbn [app]. unfold line in P1. rewrite <- app_assoc in P1. cbn [app] in P1. exact P1.
      * assert (own_elements h' id = ids) as <- by (unfold own_elements; now rewrite En).
        apply rl_own. split; rewrite En; reflexivity.
      * eapply settled_trees; [exact Sg|]. intros i Hi. apply E'. lia.
    + intros d' p' Hle (Hd' & Hp' & Hc'). apply K4; [lia|].
      assert (open_at st2 d' p') as Ho2.
      { split; [lia|]. split; [lia|]. rewrite D2, L2. replace (S d - d') with (1 + (d - d')) by lia. 
        assert (climb (a_heap st2) 1 id = Some p) as Hone by (cbn [climb]; rewrite Nn; reflexivity).
        rewrite (climb_plus _ _ _ _ _ Hone). replace (a_depth st - d') with ((a_depth st - d) + (d - d')) in Hc' by lia.
        rewrite (climb_plus _ _ _ _ _ Hcl) in Hc'. apply (climb_same _ _ _ _ _ Hc'). intros i Hi.
        destruct (Nat.eq_dec i p) as [->|Hne]; [rewrite Pp; reflexivity|now rewrite O]. }
      eapply open_keep; [exact Ho2|exact T3|exact T2|now apply grown_length in G3|]. intros i Hi. now apply (grown_parents _ _ _ _ _ G3).
  - intros st d p r Ho Hn Hp. exists st. split; [constructor|]. split; [exact Hp|]. split; [exact Hn|]. split; [reflexivity|]. split; [reflexivity|].
    split; [apply grown_nil|]. auto.
  - intros x l _ IHx _ IHl st d p r Ho Hn Hp. cbn [flat_map] in Hp. rewrite text_of_app in Hp.
    destruct (IHx st d p _ Ho Hn Hp) as (st1 & R1 & P1 & C1 & S1 & N1 & G1 & K1).
    destruct (IHl st1 d p r (K1 d p (le_n d) Ho) C1 P1) as (st2 & R2 & P2 & C2 & S2 & N2 & G2 & K2).
    exists st2. split; [eapply runs_trans; eassumption|]. split; [exact P2|]. split; [exact C2|]. split; [congruence|]. split; [congruence|].
    split; [|intros d' p' Hle H; apply K2; [assumption|]; now apply K1].
    change (x :: l) with ([x] ++ l). eapply grown_trans; [apply Ho|exact G1|exact G2].
Qed.

(** * Documents *)

Lemma run_document els subs : Forall element els -> sections subs -> inp = canonical (RawDocument (els ++ subs)) ->
  exists st, runs init_ast st /\ a_index st = length inp /\ a_comments st = None /\ a_cs st = [] /\ a_cn st = [] /\
    raw_tree inp (a_heap st) 0 (RawDocument (els ++ subs)).
Proof.
  intros Hels Hsubs Hinp. unfold canonical in Hinp. cbn [canon] in Hinp.
  assert (at_pos inp 0 (text_of (flat_map (canon 0) els) ++ text_of (flat_map (canon 0) subs) ++ [])) as P0.
  { split; [|lia]. cbn [skipn]. rewrite app_nil_r, Hinp, flat_map_app. unfold text_of. now rewrite flat_map_app. }
  destruct (run_elements els Hels init_ast _ 0 eq_refl ltac:(cbn; lia) P0) as (st1 & R1 & P1 & (Q1 & Q2 & Q3 & Q4 & Q5) & G1). cbn [a_lsec init_ast a_heap a_cs a_cn a_depth] in *.
  assert (open_at st1 0 0) as Ho.
  { split; [lia|]. split; [apply grown_length in G1; cbn in G1; lia|]. rewrite Q3, Q2. reflexivity. }
  destruct (run_sections subs Hsubs st1 0 0 [] Ho Q1 P1) as (st2 & R2 & P2 & C2 & S2 & N2 & G2 & _).
  exists st2. split; [eapply runs_trans; eassumption|]. split; [apply at_pos_len in P2; cbn in P2; lia|]. split; [exact C2|].
  split; [congruence|]. split; [congruence|].
  assert (grown [document_node] (a_heap st2) 0 (els ++ subs)) as (ids & L & O & P & S) by (eapply grown_trans; [cbn; lia|exact G1|exact G2]).
  change (hget [document_node] 0) with document_node in P.
  eapply rt_document with (l := ids) (c := None).
  - now rewrite P.
  - unfold raw_comment. now rewrite P.
  - assert (own_elements (a_heap st2) 0 = ids) as <- by (unfold own_elements; now rewrite P).
    apply rl_own. split; now rewrite P.
  - eapply settled_trees; [exact S|]. auto.
Qed.
End Build.
