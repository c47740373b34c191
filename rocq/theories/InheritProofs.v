(** InheritProofs: proofs of C48 and C49. *)
From Coq Require Import Relations.
From Verif Require Import Base Types Scan Messages Analyzer TokenStep HeapFacts AnalyzerInv AnalyzerLoop SpecTree AnalyzerTree
  AnalyzerFinal AnalyzerCopies Resolver SpecResolve ResolverIndex ResolverFields ResolverSections ResolverFinal ResolverComments SpecLinks ResolverLinks
  Reporter Errors Context SpecErrors ParseTexts ParseContext ParseOutcome SpecInherit.
From Verif Require Import PropParseProofs.

Lemma means_fun h i ty ty' : means h i ty -> means h i ty' -> ty = ty'.
Proof.
  intro H. revert ty'. induction H as [i Hi|i t ty Ht He Hm IH]; intros ty' H'; inversion H' as [j Hj|j t' ty2 Ht' He' Hm']; subst.
  - reflexivity.
  - exfalso. apply template_copies in Ht'. destruct Hi; contradiction.
  - exfalso. apply template_copies in Ht. destruct Hj; contradiction.
  - assert (t' = t) as -> by (eapply template_fun; eauto). now rewrite (IH _ Hm').
Qed.
Lemma commented_fun sec h i v v' : commented sec h i v -> commented sec h i v' -> v = v'.
Proof.
  intro H. revert v'. induction H as [i Hi|i t v Hc Ht Hm IH]; intros v' H'; inversion H' as [j Hj|j t' v2 Hc' Ht' Hm']; subst.
  - reflexivity.
  - exfalso. apply template_copies in Ht'. destruct Hi; contradiction.
  - exfalso. apply template_copies in Ht. destruct Hj; contradiction.
  - assert (t' = t) as -> by (eapply template_fun; eauto). now apply IH.
Qed.

Lemma inherited_comments tn en : n_comments (inherited tn en) = match n_comments en with Some l => Some l | None => n_comments tn end.
Proof. unfold inherited. destruct (n_comments tn) eqn:E, (n_comments en) eqn:E'; cbn; congruence. Qed.
Lemma consol_comments t tn en n : consol t tn en = Some n -> n_comments n = match n_comments en with Some l => Some l | None => n_comments tn end.
Proof.
  rewrite <- inherited_comments. unfold consol. destruct (n_type (inherited tn en)); destruct (n_type tn); try discriminate; intros [= <-]; reflexivity.
Qed.
Lemma consol_section_comments t tn sn : n_comments (consol_section t tn sn) = match n_comments sn with Some l => Some l | None => n_comments tn end.
Proof. rewrite <- inherited_comments. unfold consol_section. destruct (n_elements (inherited tn sn)); reflexivity. Qed.

Lemma final_commented h i n : final h i n -> commented false h i (n_comments n).
Proof.
  induction 1 as [i Hi|i t tn n Ht Hf IH Hc]; [apply cm_own; now left|]. cbn [n_comments set_copy]. rewrite (consol_comments _ _ _ _ Hc).
  destruct (n_comments (hget h i)) as [l|] eqn:E; [|eapply cm_template; eassumption]. rewrite <- E. apply cm_own. right. congruence.
Qed.
Lemma settled_commented h i n : settled h i n -> commented true h i (n_comments n).
Proof.
  induction 1 as [i Hi|i t tn Ht Hf IH]; [apply cm_own; now left|]. cbn [n_comments set_copy]. rewrite consol_section_comments. cbn [cleared n_comments set_deep_resolve].
  destruct (n_comments (hget h i)) as [l|] eqn:E; [|eapply cm_template; eassumption]. rewrite <- E. apply cm_own. right. congruence.
Qed.

Section Parsed.
  Context {inp : text} {loc : locale} {rk : reporter_kind} {src : option text} {c : ctx}.
  Context (HP : parse_context inp loc rk src = Ok c).

  Lemma parsed_heaps : exists st lc, analyze inp = AOk st lc /\ Analysed (a_heap st) (a_cs st) (a_cn st) /\
    resolve (a_heap st) (a_cs st) (a_cn st) = ROk (c_heap c) /\ Resolved (a_heap st) (c_heap c).
  Proof.
    apply parse_ok in HP as (st & lc & h & Ha & Hr & Hc). exists st, lc. rewrite Hc. cbn [c_heap].
    pose proof (analysed _ _ _ Ha) as HA. pose proof (resolve_spec _ _ _ HA) as Hs. rewrite Hr in Hs. auto.
  Qed.

  Lemma copies_are st lc : analyze inp = AOk st lc ->
    (forall i, i < length (a_heap st) -> is_element (hget (a_heap st) i) -> means (a_heap st) i (n_type (hget (c_heap c) i))) /\
    (forall i, ~ is_element (hget (a_heap st) i) -> n_type (hget (c_heap c) i) = n_type (hget (a_heap st) i)).
  Proof.
    intro Ha. destruct parsed_heaps as (st' & lc' & Ha' & HA & Hr & HR). rewrite Ha in Ha'. injection Ha' as <- <-. split.
    - intros i Hi Hk. now apply final_means, (rs_elem _ _ HR).
    - intros i Hk. destruct (ncls (hget (a_heap st) i)) eqn:Ec.
      all: try (rewrite (rs_other _ _ HR) by (try (rewrite Ec; discriminate); assumption); reflexivity).
      rewrite (rs_type _ _ HR i Ec). symmetry. now apply (kind_cls true) in Ec.
  Qed.

  Lemma stray_fails st lc x : analyze inp = AOk st lc -> stray_entry (a_heap st) x \/ stray_item (a_heap st) x -> False.
  Proof.
    intro Ha. destruct parsed_heaps as (st' & lc' & Ha' & HA & Hr & HR). rewrite Ha in Ha'. injection Ha' as <- <-. set (h0 := a_heap st) in *.
    assert (forall e t ty, template_is false h0 e t -> means h0 t ty -> exists tn n, n_type tn = ty /\ consol t tn (hget h0 e) = Some n) as K.
    { intros e t ty Ht Hm. assert (copies false h0 e (match n_template (hget h0 e) with Some k => k | None => [] end)) as Hc.
      { destruct Ht as (k & Hc & _). pose proof Hc as (_ & _ & E). now rewrite E. }
      destruct Hc as (Hl & Hk & _). pose proof (rs_elem _ _ HR e Hl Hk) as Hf. inversion Hf as [j Hj E|j t' tn n Ht' Hf' Hc' E]; subst.
      - now apply template_copies in Ht.
      - assert (t' = t) as -> by (eapply template_fun; eauto). exists tn, n. split; [|assumption].
        apply final_means in Hf' as [Hm' _]. eapply means_fun; eassumption. }
    intros [(e & t & ty & Ht & He & _ & _ & Hm & Hty)|(e & t & ty & Ht & He & _ & _ & Hm & Hty)].
    all: destruct (K e t ty Ht Hm) as (tn & n & E & Hc); unfold consol in Hc.
    all: assert (n_type (inherited tn (hget h0 e)) = n_type (hget h0 e)) as Ei by (unfold inherited; destruct (n_comments tn), (n_comments (hget h0 e)); reflexivity).
    all: rewrite Ei, He, E in Hc; destruct Hty as [->|[->| ->]]; discriminate.
  Qed.

  Lemma copies_agree st lc : analyze inp = AOk st lc ->
    forall i t, template_is false (a_heap st) i t ->
    n_type (hget (c_heap c) t) = EMPTY_ELEMENT \/
    n_type (hget (c_heap c) i) = match n_type (hget (c_heap c) t) with MULTILINE_FIELD_BEGIN => FIELD | ty => ty end.
  Proof.
    intros Ha i t Ht. destruct parsed_heaps as (st' & lc' & Ha' & HA & Hr & HR). rewrite Ha in Ha'. injection Ha' as <- <-. set (h0 := a_heap st) in *.
    pose proof Ht as (k & (Hi & Ki & Hk) & (Hj & Kj & _) & _). pose proof (rs_elem _ _ HR i Hi Ki) as Hf. pose proof (rs_elem _ _ HR t Hj Kj) as Hg.
    pose proof (proj2 (final_means _ _ _ Hg) Kj) as Hel.
    inversion Hf as [j Hp E|j t' tn n Ht' Hf' Hc E]; subst; [congruence|]. assert (t' = t) as -> by (eapply template_fun; eauto).
    assert (tn = hget (c_heap c) t) as -> by (eapply final_fun; eassumption). pose proof Hc as Hc'. apply consol_type in Hc'. cbn [n_type set_copy]. rewrite Hc'.
    unfold consol in Hc.
    assert (n_type (inherited (hget (c_heap c) t) (hget h0 i)) = n_type (hget h0 i)) as Ei by (unfold inherited; destruct (n_comments (hget (c_heap c) t)), (n_comments (hget h0 i)); reflexivity).
    rewrite Ei in Hc. pose proof (d_type _ (an_d _ _ _ HA) i Hi) as [_ Hty]. fold h0 in Hty. rewrite Hk in Hty. unfold is_element in Hel. unfold of_kind, is_element in Ki.
    destruct (n_type (hget h0 i)); try contradiction; cbn [itype_eqb]; destruct (n_type (hget (c_heap c) t)); try contradiction; try discriminate; auto;
      repeat match goal with H : _ /\ _ |- _ => destruct H end; discriminate.
  Qed.

  Lemma comments_copied st lc : analyze inp = AOk st lc ->
    (forall i, i < length (a_heap st) -> is_element (hget (a_heap st) i) -> commented false (a_heap st) i (n_comments (hget (c_heap c) i))) /\
    (forall i, is_section (hget (a_heap st) i) -> outside_deep (a_heap st) i -> commented true (a_heap st) i (n_comments (hget (c_heap c) i))) /\
    (forall i, n_comments (hget (a_heap st) i) <> None -> n_comments (hget (c_heap c) i) = n_comments (hget (a_heap st) i)) /\
    (forall i, ~ is_element (hget (a_heap st) i) -> ~ is_section (hget (a_heap st) i) -> n_comments (hget (c_heap c) i) = n_comments (hget (a_heap st) i)).
  Proof.
    intro Ha. destruct parsed_heaps as (st' & lc' & Ha' & HA & Hr & HR). rewrite Ha in Ha'. injection Ha' as <- <-. split; [|split; [|split]].
    - intros i Hi Hk. now apply final_commented, (rs_elem _ _ HR).
    - intros i Hs Ho. apply (kind_cls true) in Hs. change (n_comments (hget (c_heap c) i)) with (n_comments (cleared (hget (c_heap c) i))).
      apply settled_commented, (rs_sec _ _ HR); [assumption|]. intros j Hj a Hab. apply (Ho j Hj). now apply encloses_above.
    - intros i Hi. pose proof (resolve_parts (a_heap st) (a_cs st) (a_cn st)) as Hk. rewrite Hr in Hk. now apply Hk.
    - intros i H1 H2. rewrite (rs_other _ _ HR); [reflexivity| |assumption]. intro E. apply H2. now apply (kind_cls true).
  Qed.

  Lemma section_comments_from st lc : analyze inp = AOk st lc ->
    forall i l, i < length (a_heap st) -> is_section (hget (a_heap st) i) -> n_comments (hget (c_heap c) i) = Some l ->
    exists k, (k = i \/ clos_trans nat (draws_on (a_heap st)) i k) /\ is_section (hget (a_heap st) k) /\ n_comments (hget (a_heap st) k) = Some l.
  Proof.
    intros Ha i l Hi Hs Hl. destruct parsed_heaps as (st' & lc' & Ha' & HA & Hr & HR). rewrite Ha in Ha'. injection Ha' as <- <-.
    pose proof (resolved_links _ _ _ _ HA Hr) as HL. apply (kind_cls true) in Hs.
    destruct (lk_com _ _ HL i (conj Hi Hs)) as [E|(_ & k & [K1 K2] & K3 & K4 & E)].
    - exists i. split; [now left|]. split; [now apply (kind_cls true)|congruence].
    - exists k. split; [now right|]. split; [now apply (kind_cls true)|congruence].
  Qed.
End Parsed.

Section Stray.
  Context (inp : text) (loc : locale) (rk : reporter_kind) (src : option text) (Hk : rk <> TerminalReporter).
  Context (st : ast) (lc : nat) (Ha : analyze inp = AOk st lc).
  Local Notation h0 := (a_heap st).
  Let HA := analysed _ _ _ Ha.

  Lemma stray_reported : (exists x, stray_entry h0 x \/ stray_item h0 x) -> (forall c f e, ~ ambiguous h0 c f e) ->
    (forall sec i, ~ dangling sec h0 i) -> (forall sec i, ~ on_cycle sec h0 i) ->
    exists x i, parse_context inp loc rk src = Raise (ParseError x) /\
      (stray_entry h0 i /\ er_text x = lc_missing_fieldset_for_fieldset_entry loc (S (n_line (hget h0 i))) \/
       stray_item h0 i /\ er_text x = lc_missing_list_for_list_item loc (S (n_line (hget h0 i)))) /\
      er_selection x = line_of_node (hget h0 i).
  Proof.
    intros (x0 & H0) Hna Hnd Hnc. pose proof (resolve_spec _ _ _ HA) as Hsp.
    destruct (resolve h0 (a_cs st) (a_cn st)) as [h|p h| |] eqn:Hr.
    - exfalso. assert (exists c, parse_context inp loc rk src = Ok c) as [c Hc] by (eexists; apply parse_ok; exists st, lc, h; eauto).
      exact (stray_fails Hc st lc x0 Ha H0).
    - destruct (fault_same inp loc rk src st lc Ha _ _ Hr) as (Hce & Hwf & Hst).
      destruct (copy_fault_raised inp loc rk src Hk st lc Ha _ _ Hr) as [(x & Hx & Hpe)|(e & prev & -> & He & Hc & _)]; [|exfalso; eapply (Hnc true e), chain_cycle; eassumption].
      assert (forall e y ty, template_is false h0 e ty -> n_parent (hget h0 y) = Some e -> n_type (hget h0 y) = FIELDSET_ENTRY \/ n_type (hget h0 y) = LIST_ITEM -> 0 < y < length h0) as K.
      { intros e y ty _ Hp Ht. pose proof (s_doc _ (an_s _ _ _ HA)) as Hd. destruct (Nat.lt_ge_cases y (length h0)) as [Hy|Hy].
        - split; [|assumption]. destruct y; [|lia]. unfold ncls in Hd. destruct Ht as [Ht|Ht]; rewrite Ht in Hd; discriminate.
        - unfold hget in Hp. rewrite nth_overflow in Hp by lia. discriminate. }
      destruct Hce as [c f e Ham|c Hc|c Hc|sec' e prev He Hc|y Hy|y Hy].
      + exfalso. exact (Hna c f e Ham).
      + exfalso. exact (Hnd _ _ Hc).
      + exfalso. exact (Hnd _ _ Hc).
      + exfalso. eapply Hnc, chain_cycle; eassumption.
      + pose proof Hy as (e & t & ty & H1 & H2 & H3 & H4 & _). assert (0 < y < length h0) as Hyl by (eapply K; eauto). pose proof Hst as [Hl Hst'].
        cbn [parse_error] in Hpe. apply (node_error_is _ Hwf) in Hpe as [P1 P2]; [|cbn [c_heap]; now rewrite Hl]. cbn [c_heap c_locale] in *.
        destruct (text_fields _ _ (Hst' y)) as (F1 & _). rewrite F1 in P1. exists x, y. split; [assumption|]. split; [left; split; [assumption|congruence]|]. rewrite P2. now apply same_line.
      + pose proof Hy as (e & t & ty & H1 & H2 & H3 & H4 & _). assert (0 < y < length h0) as Hyl by (eapply K; eauto). pose proof Hst as [Hl Hst'].
        cbn [parse_error] in Hpe. apply (node_error_is _ Hwf) in Hpe as [P1 P2]; [|cbn [c_heap]; now rewrite Hl]. cbn [c_heap c_locale] in *.
        destruct (text_fields _ _ (Hst' y)) as (F1 & _). rewrite F1 in P1. exists x, y. split; [assumption|]. split; [right; split; [assumption|congruence]|]. rewrite P2. now apply same_line.
    - exfalso. destruct Hsp as [(a & b & _ & H)|(a & b & _ & H)]; now apply Hnd in H.
    - destruct Hsp.
  Qed.
End Stray.
