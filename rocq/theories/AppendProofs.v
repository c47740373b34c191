(** AppendProofs: lemmas for C56. *)
From Verif Require Import Base Regex Grammar Scan ScanProofs Types Analyzer TokenStep StepProofs ScanFacts HeapFacts AnalyzerInv SpecRun AnalyzerLoop StepChange CanonRun CanonProofs
  SpecText SpecAppend AppendScan AppendRun.

(** * What a step does to instructions read before *)

Lemma longer_refl n l : longer n l l.
Proof. exists []. now rewrite app_nil_r. Qed.
Lemma longer_one n l x : n <= x -> longer n l (l ++ [x]).
Proof. intro H. exists [x]. auto. Qed.
Lemma longer_trans n m a b c : n <= m -> longer n a b -> longer m b c -> longer n a c.
Proof.
  intros H (l & -> & Hl) (k & -> & Hk). exists (l ++ k). split; [now rewrite app_assoc|]. apply Forall_app. split; [assumption|].
  eapply Forall_impl; [|exact Hk]. cbn. intros x Hx. lia.
Qed.
Lemma continued_core n x y y' : core y = core y' -> continued n x y -> continued n x y'.
Proof.
  unfold core, stat, dyn. intros H C. injection H. intros. destruct C. constructor;
    match goal with E : ?f y = ?f y' |- context [?f y'] => rewrite <- E; assumption end.
Qed.
Lemma continued_refl n x : continued n x x.
Proof. constructor; try reflexivity; try apply longer_refl; [now left|exists []; now rewrite app_nil_r]. Qed.
Lemma filled_trans a b c : filled a b -> filled b c -> filled a c.
Proof. unfold filled. intros [->|[-> H]] [->|[-> K]]; auto. Qed.
Lemma continued_trans n m x y z : n <= m -> continued n x y -> continued m y z -> continued n x z.
Proof.
  intros H A B. pose proof (co_conts _ _ _ A) as [l E]. pose proof (co_conts _ _ _ B) as [k E'].
  destruct A as [], B as []. constructor; try congruence; try (eapply longer_trans; eassumption).
  - eapply filled_trans; eassumption.
  - exists (l ++ k). now rewrite E', E, app_assoc.
Qed.

Lemma cont_element n id x : n <= id -> continued n x (set_elements (n_elements x ++ [id]) x).
Proof. intro H. constructor; cbn; try reflexivity; try apply longer_refl; [now left|exists []; now rewrite app_nil_r|now apply longer_one]. Qed.
Lemma cont_item n id x : n <= id -> type_ok x -> takes_items (n_type x) = true -> continued n x (add_item id x).
Proof.
  intros H T Ht. unfold add_item. destruct (n_type x) eqn:E; try discriminate.
  - constructor; cbn; try reflexivity; try apply longer_refl; [right; rewrite E; auto|exists []; now rewrite app_nil_r|].
    destruct T as [_ T]. rewrite E in T. destruct T as ((-> & _) & _). now apply (longer_one n []).
  - constructor; cbn; try reflexivity; try apply longer_refl; [now left|exists []; now rewrite app_nil_r|].
    destruct (n_items x) as [l|]; [now apply longer_one|now apply (longer_one n [])].
Qed.
Lemma cont_entry n id x : n <= id -> type_ok x -> takes_entries (n_type x) = true -> continued n x (add_entry id x).
Proof.
  intros H T Ht. unfold add_entry. destruct (n_type x) eqn:E; try discriminate.
  - constructor; cbn; try reflexivity; try apply longer_refl; [right; rewrite E; auto|exists []; now rewrite app_nil_r|].
    destruct T as [_ T]. rewrite E in T. destruct T as ((_ & -> & _) & _). now apply (longer_one n []).
  - constructor; cbn; try reflexivity; try apply longer_refl; [now left|exists []; now rewrite app_nil_r|].
    destruct (n_entries x) as [l|]; [now apply longer_one|now apply (longer_one n [])].
Qed.
Lemma cont_cont n c x : continued n x (cont_upd c x).
Proof.
  unfold cont_upd. destruct (n_conts x) as [cs|] eqn:E.
  - constructor; cbn; try reflexivity; try apply longer_refl; [now left|exists [c]; now rewrite E].
  - destruct (itype_eqb (n_type x) EMPTY_ELEMENT) eqn:Et.
    + apply itype_eqb_eq in Et. constructor; cbn; try reflexivity; try apply longer_refl; [right; auto|exists [c]; now rewrite E].
    + constructor; cbn; try reflexivity; try apply longer_refl; [now left|exists [c]; now rewrite E].
Qed.

Definition extends (h h' : heap) : Prop := length h <= length h' /\ forall i, i < length h -> continued (length h) (hget h i) (hget h' i).
Lemma extends_refl h : extends h h.
Proof. split; [lia|]. intros. apply continued_refl. Qed.
Lemma extends_trans a b c : extends a b -> extends b c -> extends a c.
Proof. intros [H1 H2] [H3 H4]. split; [lia|]. intros i Hi. eapply continued_trans; [exact H1|now apply H2|apply H4; lia]. Qed.
Lemma extends_core h h' h'' : map core h' = map core h'' -> extends h h' -> extends h h''.
Proof.
  intros E [H1 H2]. split.
  - apply (f_equal (@length _)) in E. rewrite !map_length in E. lia.
  - intros i Hi. eapply continued_core; [apply map_core_get, E|]. now apply H2.
Qed.
Lemma extends_new h n p g : (p < length h -> continued (length h) (hget h p) (g (hget h p))) -> extends h (upd (h ++ [n]) p g).
Proof.
  intro Hg. split; [rewrite upd_length, app_length; lia|]. intros i Hi. destruct (Nat.eq_dec p i) as [->|Hne].
  - rewrite hget_upd_eq by (rewrite app_length; cbn; lia). rewrite hget_app_l by assumption. now apply Hg.
  - rewrite hget_upd_neq by assumption. rewrite hget_app_l by assumption. apply continued_refl.
Qed.
Lemma extends_upd h p g : (forall x, continued (length h) x (g x)) -> extends h (upd h p g).
Proof.
  intro Hg. split; [rewrite upd_length; lia|]. intros i Hi. destruct (Nat.eq_dec p i) as [->|Hne].
  - rewrite hget_upd_eq by assumption. apply Hg.
  - rewrite hget_upd_neq by assumption. apply continued_refl.
Qed.
Lemma extends_last h h' g : extends h h' -> extends h (upd h' (length h) g).
Proof.
  intros [H1 H2]. split; [rewrite upd_length; lia|]. intros i Hi. rewrite hget_upd_neq by lia. now apply H2.
Qed.

Lemma step_extends inp st st' : AInv st -> a_index st <= length inp -> step inp st = SOk st' -> extends (a_heap st) (a_heap st').
Proof.
  intros HI Hix. rewrite step_tstep by assumption. unfold tstep.
  destruct (scan _ _) as [[t e]|]; [|destruct (fail_at_err inp st (a_index st) (a_line st) PInvalidLine) as (x & ls & lc & _ & ->); discriminate].
  assert (forall a i l mk, fail_at inp a i l mk = SOk st' -> extends (a_heap st) (a_heap st')) as Hfail.
  { intros a i l mk. destruct (fail_at_err inp a i l mk) as (x & ls & lc & _ & ->). discriminate. }
  assert (forall n p, extends (a_heap st) (add_element (a_heap st ++ [n]) p (length (a_heap st)))) as Hel.
  { intros n p. apply extends_new. intros _. now apply cont_element. }
  destruct t as [p|op v|op v|op v|op v|op k|op k tp|k op v|k op v|k op tp]; cbn [tstep_tok].
  - intros [= <-]. apply extends_refl.
  - destruct (a_lce st); [|apply Hfail]. intros [= <-]. apply extends_upd. intro x. apply cont_cont.
  - destruct (a_lce st); [|apply Hfail]. intros [= <-]. apply extends_upd. intro x. apply cont_cont.
  - intros [= <-]. apply extends_refl.
  - destruct (a_lnse st) as [l|]; [|apply Hfail]. destruct (takes_items _) eqn:Et; [|apply Hfail]. intros [= <-].
    apply extends_new. intro Hl. apply cont_item; [lia|apply HI, Hl|assumption].
  - destruct (find_closing _ _ _ _) as [[stop [[o2 k2] e2]]|]; [|apply Hfail].
    destruct (if Nat.eqb stop e then _ else _) as [[[ls l3] i3]|]; [|discriminate]. intros [= <-]. cbn [a_heap]. apply extends_last, Hel.
  - destruct (section_parent st _) as [[q|]|]; [|discriminate|apply Hfail]. destruct tp as [[o x]|]; [|intros [= <-]; apply Hel].
    destruct (mark_deep _ _ _) as [h2|] eqn:Em; [|discriminate]. intros [= <-]. cbn [a_heap].
    eapply extends_core; [|apply Hel]. symmetry. eapply mark_deep_core. exact Em.
  - intros [= <-]. apply Hel.
  - destruct (a_lnse st) as [l|]; [|apply Hfail]. destruct (takes_entries _) eqn:Et; [|apply Hfail]. intros [= <-].
    apply extends_new. intro Hl. apply cont_entry; [lia|apply HI, Hl|assumption].
  - intros [= <-]. apply Hel.
Qed.
Lemma runs_extends inp a b : AInv a -> runs inp a b -> extends (a_heap a) (a_heap b).
Proof.
  intros Ha H. induction H as [a|a a1 b Hi Hs Hr IH]; [apply extends_refl|].
  pose proof (step_inv inp a Ha ltac:(lia)) as H. rewrite Hs in H. destruct H as [H1 _].
  eapply extends_trans; [apply (step_extends inp a a1); [exact Ha|lia|exact Hs]|now apply IH].
Qed.

(** instructions start where the step that reads them starts *)
Definition starts (n : node) : option nat := option_map fst (rget (n_ranges n) R_line).
Lemma step_starts inp st st' : AInv st -> a_index st <= length inp -> step inp st = SOk st' ->
  forall i, length (a_heap st) <= i < length (a_heap st') -> starts (hget (a_heap st') i) = Some (a_index st).
Proof.
  intros HI Hix Hs i Hi. destruct (step_change inp st st' HI Hix Hs) as (t & e & _ & Hc).
  destruct Hc as [n p g e' Hcr Hp Hg Hm _ _ _ _|c lf _ _ Hh _ _ _ _|op v _ Hh _ _ _ _|p _ Hh _ _ _ _].
  - assert (length (a_heap st') = S (length (a_heap st))) as El.
    { apply (f_equal (@length _)) in Hm. rewrite !map_length in Hm. unfold app_upd in Hm. rewrite upd_length, app_length in Hm. cbn in Hm. lia. }
    replace i with (length (a_heap st)) by lia. apply (map_core_get _ _ (length (a_heap st))) in Hm.
    rewrite (app_upd_new (a_heap st) n p g Hp) in Hm.
    assert (n_ranges (hget (a_heap st') (length (a_heap st))) = n_ranges n) as Er by (unfold core, stat in Hm; congruence).
    unfold starts. rewrite Er. destruct Hcr; reflexivity.
  - rewrite Hh, hupd_len in Hi. lia.
  - rewrite Hh in Hi. lia.
  - rewrite Hh in Hi. lia.
Qed.
Lemma runs_starts inp a b : AInv a -> runs inp a b -> forall i, length (a_heap a) <= i < length (a_heap b) ->
  exists p, starts (hget (a_heap b) i) = Some p /\ a_index a <= p.
Proof.
  intros Ha H. induction H as [a|a a1 b Hi Hs Hr IH]; intros i Hib; [lia|].
  pose proof (step_inv inp a Ha ltac:(lia)) as H. rewrite Hs in H. destruct H as [H1 H2].
  destruct (le_lt_dec (length (a_heap a1)) i) as [Hl|Hl].
  - destruct (IH H1 i ltac:(lia)) as (p & E & Hp). exists p. split; [assumption|lia].
  - exists (a_index a). split; [|lia]. pose proof (runs_extends inp a1 b H1 Hr) as [_ Hx].
    unfold starts. rewrite (co_ranges _ _ _ (Hx i Hl)). apply (step_starts inp a a1); auto; lia.
Qed.

Lemma nth_skip {A} (l : list A) n k : nth_error (skipn n l) k = nth_error l (n + k).
Proof. revert n. induction l as [|x l IH]; intros [|n]; cbn; auto. now destruct k. Qed.

(** * The analysis of a text and of its beginning *)

Section Append.
  Context (d s : text).
  Local Notation dd := (d ++ nl :: s).

  Lemma stuck inp a b e st lc : runs inp a b -> step inp a = SErr e st lc -> b = a.
  Proof. intros H E. inversion H; [reflexivity|congruence]. Qed.
  Lemma reach_det inp a b : reach inp a -> reach inp b -> runs inp a b \/ runs inp b a.
  Proof. rewrite !runs_reach. apply runs_det. Qed.
  Lemma done inp a b : length inp <= a_index a -> runs inp a b -> b = a.
  Proof. intros H R. inversion R; [reflexivity|lia]. Qed.

  Lemma kept st lc st' lc' : analyze d = AOk st lc -> analyze dd = AOk st' lc' -> extends (a_heap st) (a_heap st') /\
    forall i, length (a_heap st) <= i < length (a_heap st') -> exists p e, rget (n_ranges (hget (a_heap st') i)) R_line = Some (p, e) /\ length d < p.
  Proof.
    intros H H'. destruct (behind d s st lc H) as (st1 & R1 & I1 & <- & _).
    pose proof (analyze_reach dd) as Ha. rewrite H' in Ha. destruct Ha as (st0 & R0 & L0 & -> & _). cbn [a_heap].
    assert (runs dd st1 st0) as R.
    { destruct (reach_det _ _ _ R1 R0) as [R|R]; [assumption|]. apply done in R as ->; [constructor|assumption]. }
    destruct (reach_inv _ _ R1) as [HI _]. split; [now apply (runs_extends dd)|]. intros i Hi.
    destruct (runs_starts dd st1 st0 HI R i Hi) as (p & E & Hp). unfold starts in E.
    destruct (rget _ R_line) as [[a b]|]; [|discriminate]. injection E as ->. exists p, b. split; [reflexivity|lia].
  Qed.

  Lemma error_located inp st e st' lc : AInv st -> a_index st <= length inp -> step inp st = SErr e st' lc ->
    exists q, located (a_heap st') e = Some (a_index st, q).
  Proof.
    intros HI Hi. rewrite step_tstep by assumption. unfold tstep.
    assert (forall mk, fail_at inp st (a_index st) (a_line st) mk = SErr e st' lc -> exists i q, e = mk i /\ rget (l_ranges i) R_line = Some (a_index st, q)) as Hf.
    { intros mk. destruct (fail_at_err inp st (a_index st) (a_line st) mk) as (x & ls & lc' & Et & ->). intros [= <- _ _].
      exists x. cbn [tokenize_error] in Et. destruct (find_nl inp (a_index st)) as [q|].
      - destruct (tokenize_error inp _ _ _ _) as [[? ?]|]; [|discriminate]. injection Et as <- _ _. exists q. split; reflexivity.
      - injection Et as <- _ _. exists (length inp). split; reflexivity. }
    destruct (scan _ _) as [[t e0]|].
    2:{ intro H. destruct (Hf _ H) as (i & q & -> & E). eauto. }
    destruct t as [p|op v|op v|op v|op v|op k|op k tp|k op v|k op v|k op tp]; cbn [tstep_tok]; try discriminate.
    - destruct (a_lce st); [discriminate|]. intro H. destruct (Hf _ H) as (i & q & -> & E). eauto.
    - destruct (a_lce st); [discriminate|]. intro H. destruct (Hf _ H) as (i & q & -> & E). eauto.
    - destruct (a_lnse st) as [l|]; [destruct (takes_items _); [discriminate|]|]; intro H; destruct (Hf _ H) as (i & q & -> & E); eauto.
    - destruct (find_closing _ _ _ _) as [[stop [[o2 k2] e2]]|].
      + destruct (if Nat.eqb stop e0 then _ else _) as [[[ls l3] i3]|]; discriminate.
      + match goal with |- fail_at _ ?a ?b ?c ?m = _ -> _ => destruct (fail_at_err inp a b c m) as (x & ls & lc' & _ & ->) end.
        intros [= <- <- _]. cbn [located a_heap]. assert (a_lsec st < length (a_heap st)) as Hs by apply HI.
        unfold add_element, hupd. rewrite hget_upd_neq, hget_app_r by lia. cbn. eauto.
    - destruct (section_parent st _) as [[q|]|]; [|discriminate|].
      + destruct tp as [[o x]|]; [destruct (mark_deep _ _ _)|]; discriminate.
      + intro H. destruct (Hf _ H) as (i & q & -> & E). eauto.
    - destruct (a_lnse st) as [l|]; [destruct (takes_entries _); [discriminate|]|]; intro H; destruct (Hf _ H) as (i & q & -> & E); eauto.
  Qed.

  Lemma later_errors st lc e st' lc' : analyze d = AOk st lc -> analyze dd = AErr e st' lc' ->
    exists p q, located (a_heap st') e = Some (p, q) /\ length d < p.
  Proof.
    intros H H'. destruct (behind d s st lc H) as (st1 & R1 & I1 & _).
    pose proof (analyze_reach dd) as Ha. rewrite H' in Ha. destruct Ha as (st0 & R0 & L0 & E0).
    destruct (reach_inv _ _ R0) as [HI _]. destruct (error_located dd st0 e st' lc' HI ltac:(lia) E0) as (q & E). exists (a_index st0), q. split; [assumption|].
    destruct (reach_det _ _ _ R1 R0) as [R|R].
    - destruct (reach_inv _ _ R1) as [HI1 _]. destruct (runs_index dd st1 st0 HI1 R) as [_ [->|]]; lia.
    - rewrite <- (stuck _ _ _ _ _ _ R E0). lia.
  Qed.

  Lemma stays_failed st0 e st' lc' : reach dd st0 -> a_index st0 < length dd -> step dd st0 = SErr e st' lc' -> exists lc'', analyze dd = AErr e st' lc''.
  Proof.
    intros R L E. pose proof (analyze_reach dd) as Ha. destruct (analyze dd) as [st2 lc2|e2 st2 lc2| |]; try contradiction.
    - exfalso. destruct Ha as (st1 & R1 & L1 & _). destruct (reach_det _ _ _ R R1) as [Q|Q].
      + apply (stuck _ _ _ _ _ _ Q) in E. subst. lia.
      + apply done in Q; [|assumption]. subst. lia.
    - destruct Ha as (st1 & R1 & L1 & E1). exists lc2. destruct (reach_det _ _ _ R R1) as [Q|Q].
      + rewrite (stuck _ _ _ _ _ _ Q E) in E1. congruence.
      + rewrite (stuck _ _ _ _ _ _ Q E1) in E. congruence.
  Qed.
  Lemma errors_stay e st lc : analyze d = AErr e st lc -> ~ open_ended e -> exists st' lc', analyze dd = AErr e st' lc' /\ a_heap st' = a_heap st.
  Proof.
    intros H Ho. pose proof (analyze_reach d) as Ha. rewrite H in Ha. destruct Ha as (st0 & R & L & E).
    pose proof (step_same d s st0 ltac:(lia)) as Hs. rewrite E in Hs. destruct Hs as [Hs|(st' & lc' & Hs & Hh)].
    - exfalso. apply Ho. destruct e; exact Hs.
    - destruct (stays_failed st0 e st' lc' (reach_more d s _ R) ltac:(rewrite dd_length; lia) Hs) as [lc'' Ha]. eauto.
  Qed.
  Lemma invalid_stays i st lc : analyze d = AErr (PInvalidLine i) st lc ->
    (exists p c, snd (line_range (l_ranges i)) < p /\ nth_error d p = Some c /\ is_space c = false /\ c <> c_lt) ->
    exists st' lc', analyze dd = AErr (PInvalidLine i) st' lc' /\ a_heap st' = a_heap st.
  Proof.
    intros H (p & c & Hp & Hc & Hv & Hl). pose proof (analyze_reach d) as Ha. rewrite H in Ha. destruct Ha as (st0 & R & L & E).
    destruct (fail_more d s st0 st0 (a_index st0) (a_line st0) PInvalidLine ltac:(lia) eq_refl) as (x & st1 & lc1 & st2 & lc2 & F1 & F2 & H1 & H2 & Hx & _).
    rewrite step_tstep in E by lia. unfold tstep in E.
    destruct (scan (a_index st0) (skipn (a_index st0) d)) as [[t e0]|] eqn:Es.
    - exfalso. clear -E.
      assert (forall a j l mk, (forall y, mk y <> PInvalidLine i) -> fail_at d a j l mk = SErr (PInvalidLine i) st lc -> False) as Hf.
      { intros a j l mk Hm. destruct (fail_at_err d a j l mk) as (y & ls & lc' & _ & ->). intros [= E1 _ _]. now apply Hm in E1. }
      destruct t as [q|op v|op v|op v|op v|op k|op k tp|k op v|k op v|k op tp]; cbn [tstep_tok] in E; try discriminate.
      + destruct (a_lce st0); [discriminate|]. eapply Hf; [|exact E]. discriminate.
      + destruct (a_lce st0); [discriminate|]. eapply Hf; [|exact E]. discriminate.
      + destruct (a_lnse st0) as [l|]; [destruct (takes_items _); [discriminate|]|]; (eapply Hf; [|exact E]; discriminate).
      + destruct (find_closing _ _ _ _) as [[stop [[o2 k2] e2]]|]; [|eapply Hf; [|exact E]; discriminate].
        destruct (if Nat.eqb stop e0 then _ else _) as [[[ls l3] i3]|]; discriminate.
      + destruct (section_parent st0 _) as [[q|]|]; [|discriminate|eapply Hf; [|exact E]; discriminate].
        destruct tp as [[o x]|]; [destruct (mark_deep _ _ _)|]; discriminate.
      + destruct (a_lnse st0) as [l|]; [destruct (takes_entries _); [discriminate|]|]; (eapply Hf; [|exact E]; discriminate).
    - rewrite F1 in E. injection E as -> -> ->. rewrite Hx in Hp. cbn [snd] in Hp.
      assert (step dd st0 = SErr (PInvalidLine i) st2 lc2) as E2.
      { rewrite step_tstep by (rewrite dd_length; lia). unfold tstep. rewrite skipn_more by lia. rewrite scan_stays; [exact F2| |exact Es].
        exists c. split; [|auto]. unfold eol in Hp. rewrite <- skipn_plus. apply (nth_error_In _ (p - (a_index st0 + length (line_of (skipn (a_index st0) d))))).
        rewrite nth_skip, <- Hc. f_equal. lia. }
      destruct (stays_failed st0 _ st2 lc2 (reach_more d s _ R) ltac:(rewrite dd_length; lia) E2) as [lc'' Ha]. exists st2, lc''. split; [assumption|congruence].
  Qed.

  (** ** Blank lines at the end *)

  Lemma blank_runs n : forall st, n = length dd - a_index st -> reach dd st -> forallb is_space (skipn (a_index st) dd) = true ->
    exists st', runs dd st st' /\ length dd <= a_index st' /\ a_heap st' = a_heap st /\ flush (a_meta st') (a_comments st') = flush (a_meta st) (a_comments st) /\
      a_cs st' = a_cs st /\ a_cn st' = a_cn st.
  Proof.
    induction n as [n IH] using lt_wf_ind. intros st En R Hb.
    destruct (le_lt_dec (length dd) (a_index st)) as [Hl|Hl]; [exists st; split; [constructor|auto]|].
    destruct (reach_inv _ _ R) as [HI _].
    assert (exists p e, scan (a_index st) (skipn (a_index st) dd) = Some (TEmpty p, e)) as (p & e & Es).
    { unfold scan. cbn zeta. pose proof (after_spaces_head (skipn (a_index st) dd)) as Hh.
      rewrite (split_spaces (skipn (a_index st) dd)), forallb_app in Hb. apply andb_true_iff in Hb as [_ Hb].
      destruct (after_spaces (skipn (a_index st) dd)) as [|c r]; [eauto|]. cbn [forallb] in Hb. apply andb_true_iff in Hb as [Hb _].
      rewrite is_space_split, Hh in Hb. cbn [orb] in Hb. rewrite Hb. eauto. }
    destruct (scan_ok dd (a_index st) (TEmpty p) e ltac:(lia) Es) as (He & [He' _] & _).
    assert (exists st1, step dd st = SOk st1 /\ a_index st1 = S e /\ a_heap st1 = a_heap st /\ flush (a_meta st1) (a_comments st1) = flush (a_meta st) (a_comments st) /\ a_cs st1 = a_cs st /\ a_cn st1 = a_cn st) as (st1 & Hs & I1 & H1 & M1 & C1 & N1).
    { eexists. rewrite step_tstep by lia. unfold tstep. rewrite Es. cbn [tstep_tok]. split; [reflexivity|]. cbn. repeat split. }
    assert (reach dd st1) as R1 by (eapply reach_step; eauto).
    assert (forallb is_space (skipn (a_index st1) dd) = true) as Hb1.
    { rewrite I1. replace (S e) with (a_index st + (S e - a_index st)) by lia. rewrite skipn_plus. revert Hb. generalize (skipn (a_index st) dd). generalize (S e - a_index st).
      clear. intros m l. revert m. induction l as [|x l IH]; intros [|m] H; cbn in *; auto. apply andb_true_iff in H as [_ H]. now apply IH. }
    destruct (IH (length dd - a_index st1) ltac:(lia) st1 eq_refl R1 Hb1) as (st' & Q & L & A1 & A2 & A3 & A4).
    exists st'. split; [econstructor; eauto|]. repeat split; congruence || assumption.
  Qed.
  Lemma blank_end st lc : analyze d = AOk st lc -> forallb is_space s = true ->
    exists st' lc', analyze dd = AOk st' lc' /\ a_heap st' = a_heap st /\ a_meta st' = a_meta st /\ a_cs st' = a_cs st /\ a_cn st' = a_cn st.
  Proof.
    intros H Hb. destruct (behind d s st lc H) as (st1 & R1 & I1 & H1 & M1 & _ & _ & _ & _ & C1 & N1).
    destruct (blank_runs _ st1 eq_refl R1) as (st2 & Q & L & A1 & A2 & A3 & A4).
    { rewrite I1. replace (S (length d)) with (length (d ++ [nl])) by (rewrite app_length; cbn; lia).
      replace dd with ((d ++ [nl]) ++ s) by now rewrite <- app_assoc. rewrite skipn_app, skipn_all, Nat.sub_diag. exact Hb. }
    assert (reach dd st2) as R2 by (rewrite runs_reach in *; eapply runs_trans; eassumption).
    pose proof (analyze_reach dd) as Ha. destruct (analyze dd) as [st3 lc3|e st3 lc3| |]; try contradiction.
    - destruct Ha as (st0 & R0 & L0 & -> & _). assert (st0 = st2) as ->.
      { destruct (reach_det _ _ _ R0 R2) as [R|R]; [symmetry|]; now apply done in R. }
      do 2 eexists. split; [reflexivity|]. cbn. repeat split; congruence.
    - exfalso. destruct Ha as (st0 & R0 & L0 & E0). destruct (reach_det _ _ _ R0 R2) as [R|R].
      + apply (stuck _ _ _ _ _ _ R) in E0. subst. lia.
      + apply done in R; [|assumption]. subst. lia.
  Qed.
End Append.
