(** WholeProofs: what list and fieldset objects list, in terms of what they copy (C23, C24). *)
From Coq Require Import Relations.
From Verif Require Import Base Types Scan Analyzer TokenStep HeapFacts AnalyzerInv AnalyzerLoop SpecTree AnalyzerTree
  AnalyzerFinal AnalyzerCopies Resolver SpecResolve ResolverIndex ResolverFields ResolverSections ResolverFinal
  Messages Reporter Errors Context Elements SpecText SpecRead Reads ReadOps ReadLinks ParseOutcome SpecApi ApiDoc ApiInv ApiState ApiOps SessionInv SpecQuery SpecLinks QueryProofs
  Session SessionRun PropQueryProofs PropCopiesProofs CopiesProofs SpecLoad LoadProofs SpecWhole.

Section Whole.
  Context (h0 : heap) (cs cn : list (text * list nat)) (HA : Analysed h0 cs cn) (r : heap) (HR : Resolved h0 r).

  Lemma empty_own e : n_type (hget h0 e) = EMPTY_ELEMENT -> e < length h0 -> own_items r e = [] /\ own_entries r e = [].
  Proof.
    intros E L. pose proof (d_type _ (an_d _ _ _ HA) e L) as [_ T]. rewrite E in T. destruct T as ((T1 & T2 & _) & _).
    destruct (res_fields h0 r HR e) as (_ & _ & _ & F1 & F2 & _). unfold own_items, own_entries. now rewrite F1, F2, T1, T2.
  Qed.
  Lemma uncopied e : is_element (hget r e) -> n_template (hget r e) = None -> plain r e.
  Proof.
    intros He Ht. destruct (element_cases h0 cs cn HA r HR e He) as [Ke [[_ Er]|(t & Ht' & _)]].
    - destruct (pristine_over h0 cs cn HA e) as (P1 & P2 & _). split; rewrite Er; assumption.
    - exfalso. destruct Ht' as (k & (_ & _ & Hk) & _). pose proof (res_text h0 r HR e) as E. unfold text_part in E.
      assert (n_template (hget r e) = n_template (hget h0 e)) by congruence. congruence.
  Qed.
  Lemma copied_is e t : template_is false r e t -> is_element (hget r e) /\ is_element (hget r t) /\ e < length h0 /\ copied_as h0 r e t.
  Proof.
    intro Ht. apply (template_res h0 r HR) in Ht. destruct (template_elem h0 e t Ht) as [Ke Kt]. split; [|split; [|split; [now apply elem_lt in Ke|]]].
    - now apply (of_kind_res h0 r HR false e).
    - now apply (of_kind_res h0 r HR false t).
    - eapply copy_cases; eassumption.
  Qed.

  Lemma whole_item_list e L : whole_items r e L -> is_element (hget r e) -> item_list r e L.
  Proof.
    induction 1 as [e Ht|e t l Ht Hl IH]; intro He; [apply lt_own; now apply uncopied|].
    destruct (copied_is e t Ht) as (_ & Kt & Le & Hc). specialize (IH Kt).
    destruct Hc as [m E0 Ex Em Hm Ety Ee|E0 Em Ex Ett Ety|E0 Em Ex Ett Ety].
    - rewrite (proj1 (empty_own e E0 Le)), app_nil_r. apply (lt_mirror r e m); [assumption|].
      destruct (n_mirror (hget r t)) as [m'|] eqn:Emt; [|now subst m]. subst m.
      inversion IH as [? [G _]|? m2 ? G G2|? ? ? [G _]]; unfold mirrors in *; subst; congruence.
    - apply (lt_extend r e t); [now split|assumption].
    - destruct (empty_plain h0 cs cn HA r HR t Ett) as (Hp & Hi & _).
      assert (l = []) as ->. { pose proof (lt_own r t Hp) as K. unfold own_items in K. rewrite Hi in K. exact (item_list_fun r t l IH [] K). }
      apply lt_own. now split.
  Qed.
  Lemma whole_entry_list e L : whole_entries r e L -> is_element (hget r e) -> entry_list r e L.
  Proof.
    pose proof (doc_of h0 cs cn HA r HR) as HD.
    induction 1 as [e Ht|e t l l' Ht Hl IH Hw]; intro He; [apply le_own; now apply uncopied|].
    destruct (copied_is e t Ht) as (_ & Kt & Le & Hc). specialize (IH Kt).
    destruct Hc as [m E0 Ex Em Hm Ety Ee|E0 Em Ex Ett Ety|E0 Em Ex Ett Ety].
    - rewrite (proj2 (empty_own e E0 Le)) in Hw |- *. rewrite app_nil_r. apply (without_nil r) in Hw. subst l'. apply (le_mirror r e m); [assumption|].
      destruct (n_mirror (hget r t)) as [m'|] eqn:Emt; [|now subst m]. subst m.
      inversion IH as [? [G _]|? m2 ? G G2|? ? ? ? [G _]]; unfold mirrors in *; subst; congruence.
    - apply (le_extend r e t l l'); [now split|assumption..].
    - destruct (empty_plain h0 cs cn HA r HR t Ett) as (Hp & _ & Hi).
      assert (l = []) as ->. { pose proof (le_own r t Hp) as K. unfold own_entries in K. rewrite Hi in K. exact (entry_list_fun r HD t l IH [] K). }
      inversion Hw; subst. apply le_own. now split.
  Qed.

  Definition valued (e : nat) : Prop := n_type (hget r e) = FIELD \/ n_type (hget r e) = MULTILINE_FIELD_BEGIN \/ n_type (hget r e) = EMPTY_ELEMENT.
  Lemma empty_value inp e v : n_type (hget r e) = EMPTY_ELEMENT -> n_type (hget h0 e) = EMPTY_ELEMENT -> e < length h0 -> plain_value inp (hget r e) v <-> v = None.
  Proof.
    intros E E0 L. pose proof (d_type _ (an_d _ _ _ HA) e L) as [_ T]. rewrite E0 in T. pose proof (res_text h0 r HR e) as Et. unfold text_part in Et.
    assert (parts (hget r e) = [(None, false)]) as Ep.
    { unfold parts. destruct T as (_ & T2 & T3). assert (n_conts (hget r e) = None /\ n_value (hget r e) = None) as [-> ->] by (split; congruence). reflexivity. }
    unfold plain_value. rewrite E, Ep. split.
    - intro H. inversion H as [| gap t sp rest w F Hr Eq]; subst; [reflexivity|]. destruct gap as [|g gap]; [discriminate|]. destruct gap; discriminate.
    - intros ->. constructor. now repeat constructor.
  Qed.
  Lemma whole_value_text inp e v : whole_value inp r e v -> is_element (hget r e) -> valued e -> value_text inp r e v.
  Proof.
    induction 1 as [e v Ht Hv|e t v Ht Hl IH]; intros He Hty; [apply vt_own; [now apply uncopied|assumption]|].
    destruct (copied_is e t Ht) as (_ & Kt & Le & Hc). specialize (IH Kt). unfold valued in *.
    destruct Hc as [m E0 Ex Em Hm Ety Ee|E0 Em Ex Ett Ety|E0 Em Ex Ett Ety].
    - assert (value_text inp r t v) as IH' by (apply IH; rewrite Ee in Hty; destruct (n_type (hget r t)); intuition congruence).
      apply (vt_mirror inp r e m); [assumption|]. destruct (n_mirror (hget r t)) as [m'|] eqn:Emt; [|now subst m]. subst m.
      inversion IH' as [? ? G|? m2 ? G G2]; unfold mirrors in *; subst; congruence.
    - exfalso. destruct Ety, Hty as [|[|]]; congruence.
    - assert (n_type (hget r e) = EMPTY_ELEMENT) as T by (destruct Ety as [|[|]], Hty as [|[|]]; congruence).
      destruct (empty_plain h0 cs cn HA r HR t Ett) as (Hp & _).
      assert (n_type (hget h0 t) = EMPTY_ELEMENT) as T0.
      { destruct (element_cases h0 cs cn HA r HR t Kt) as [_ [[_ Er]|(t' & _ & [m' F0 Fx Fm Hm' Fty Fe|F0 Fm Fx Ftt Fty|F0 Fm Fx Ftt Fty])]]; congruence. }
      assert (v = None) as ->.
      { assert (value_text inp r t v) as IH' by auto. inversion IH' as [? ? G Gv|? m2 ? G G2]; subst; [|destruct Hp; unfold mirrors in G; congruence].
        apply (empty_value inp t) in Gv; try assumption. now apply (element_lt h0 r HR). }
      apply vt_own; [assumption|]. apply (empty_value inp e); try assumption; try congruence.
  Qed.

  Lemma whole_total e : is_element (hget r e) -> (exists L, whole_items r e L) /\ exists L, whole_entries r e L.
  Proof.
    intro He. pose proof (doc_of h0 cs cn HA r HR) as HD. destruct (element_cases h0 cs cn HA r HR e He) as [Ke _].
    pose proof (elem_final h0 r HR e Ke) as F. remember (hget r e) as n eqn:En. clear He. revert En.
    induction F as [e Ht|e t tn n Ht Hf IH Hc]; intro En.
    - assert (n_template (hget r e) = None) as E by congruence. split; eexists; [now apply wi_own|now apply we_own].
    - destruct (template_elem _ _ _ Ht) as [_ Kt]. assert (tn = hget r t) as Et by (eapply final_fun; [eassumption|apply (elem_final h0 r HR t Kt)]).
      destruct (IH Kt Et) as [(l & Hl) (k & Hk)]. apply (template_res h0 r HR) in Ht as Ht'. split; [eexists; eapply wi_copy; eassumption|].
      destruct (without_total r (own_entries r e) k) as (k' & Hk').
      + intros x Hx. now apply (own_entry_key r HD e).
      + apply (entry_list_keys r HD t). apply whole_entry_list; [assumption|]. now apply (of_kind_res h0 r HR false t).
      + eexists. eapply we_copy; eassumption.
  Qed.
End Whole.

Section Parsed.
  Context {inp : text} {loc : locale} {rk : reporter_kind} {src : option text} {c : ctx} (HP : parse_context inp loc rk src = Ok c).

  Lemma object_element s o cl e : reach c s -> names s o cl e -> cl = CList \/ cl = CFieldset -> is_element (hget (c_heap c) e).
  Proof.
    intros Hs HN Hcl. pose proof (iv_obj _ _ (inv_reach c (doc_of_parse inp loc rk src c HP) s Hs) o (proj1 HN)) as [He Hc _ _ _ _ _].
    pose proof HN as (_ & N1 & N2). rewrite N1, N2 in *. unfold is_element. destruct Hcl as [-> | ->]; cbn in Hc; destruct (n_type (hget (c_heap c) e)); try discriminate; exact I.
  Qed.
  Lemma items_whole s o e L : reach c s -> names s o CList e -> whole_items (c_heap c) e L ->
    exists ys, snd (list_items o s) = Ok ys /\ Forall2 (fun y x => is_obj (fst (list_items o s)) y CItem x (Some o)) ys L.
  Proof.
    intros Hs HN HL. destruct (parsed_copies HP) as (h0 & cs & cn & HA & Hr & HR). apply (query_items HP s o e L Hs HN).
    eapply whole_item_list; try eassumption. eapply object_element; eauto.
  Qed.
  Lemma entries_whole s o e key L : reach c s -> names s o CFieldset e -> whole_entries (c_heap c) e L ->
    exists ys, snd (fieldset_entries o key s) = Ok ys /\ Forall2 (fun y x => is_obj (fst (fieldset_entries o key s)) y CEntry x (Some o)) ys (filter (keyed (c_heap c) key) L).
  Proof.
    intros Hs HN HL. destruct (parsed_copies HP) as (h0 & cs & cn & HA & Hr & HR). apply (query_entries HP s o e key L Hs HN).
    eapply whole_entry_list; try eassumption. eapply object_element; eauto.
  Qed.
  Lemma entry_whole s o e key req L : reach c s -> names s o CFieldset e -> whole_entries (c_heap c) e L ->
    entry_answers c s (fst (entry_query o key req s)) o e key req (filter (keyed (c_heap c) key) L) (snd (entry_query o key req s)).
  Proof.
    intros Hs HN HL. destruct (parsed_copies HP) as (h0 & cs & cn & HA & Hr & HR). apply (query_entry HP s o e key req L Hs HN).
    eapply whole_entry_list; try eassumption. eapply object_element; eauto.
  Qed.
  Lemma whole_ones e : is_element (hget (c_heap c) e) -> (exists! L, whole_items (c_heap c) e L) /\ exists! L, whole_entries (c_heap c) e L.
  Proof.
    intro He. destruct (parsed_copies HP) as (h0 & cs & cn & HA & Hr & HR). pose proof (doc_of_parse inp loc rk src c HP) as HD.
    destruct (whole_total h0 cs cn HA _ HR e He) as [(l & Hl) (k & Hk)]. split.
    - exists l. split; [assumption|]. intros l' Hl'. apply (item_list_fun (c_heap c) e); eapply whole_item_list; eassumption.
    - exists k. split; [assumption|]. intros k' Hk'. apply (entry_list_fun (c_heap c) HD e); eapply whole_entry_list; eassumption.
  Qed.
  (** objects with a value *)
  Lemma value_kind s o cl e : reach c s -> names s o cl e -> has_value cl ->
    is_element (hget (c_heap c) e) /\ valued (c_heap c) e \/ n_template (hget (c_heap c) e) = None /\ n_mirror (hget (c_heap c) e) = None.
  Proof.
    intros Hs HN Hcl. pose proof (iv_obj _ _ (inv_reach c (doc_of_parse inp loc rk src c HP) s Hs) o (proj1 HN)) as [He Hc _ _ _ _ _].
    pose proof HN as (_ & N1 & N2). rewrite N1, N2 in *. destruct (parsed_copies HP) as (h0 & cs & cn & HA & Hr & HR).
    assert (n_type (hget (c_heap c) e) = LIST_ITEM \/ n_type (hget (c_heap c) e) = FIELDSET_ENTRY ->
      n_template (hget (c_heap c) e) = None /\ n_mirror (hget (c_heap c) e) = None) as K.
    { intro Hty. assert (~ is_element (hget h0 e) /\ ~ is_section (hget h0 e)) as [K1 K2].
      { split; intro K; [apply (of_kind_res h0 (c_heap c) HR false e) in K|apply (of_kind_res h0 (c_heap c) HR true e) in K]; unfold of_kind, is_element, is_section in K; destruct Hty as [E|E]; rewrite E in K; try contradiction; discriminate. }
      pose proof (rs_other _ _ HR e ltac:(intro E; apply K2; now apply (kind_cls true (hget h0 e))) K1) as E. rewrite E in *.
      destruct (pristine_over h0 cs cn HA e) as (P1 & P2 & _). split; [|assumption].
      pose proof (d_type _ (an_d _ _ _ HA) e ltac:(rewrite <- (res_len _ _ HR); assumption)) as [_ T]. destruct Hty as [Ety|Ety]; rewrite Ety in T; tauto. }
    destruct Hcl as [->|[->| ->]]; cbn in Hc; unfold valued, is_element; destruct (n_type (hget (c_heap c) e)); try discriminate; auto.
  Qed.
  Lemma whole_value_total e : is_element (hget (c_heap c) e) -> exists v, whole_value inp (c_heap c) e v.
  Proof.
    intro He. destruct (parsed_copies HP) as (h0 & cs & cn & HA & Hr & HR). pose proof (doc_of_parse inp loc rk src c HP) as HD.
    destruct (element_cases h0 cs cn HA _ HR e He) as [Ke _]. pose proof (elem_final h0 _ HR e Ke) as F. remember (hget (c_heap c) e) as n eqn:En. clear Ke.
    revert He En. induction F as [e Ht|e t tn n Ht Hf IH Hc]; intros He En.
    - assert (n_template (hget (c_heap c) e) = None) as E by congruence.
      assert (n_mirror (hget (c_heap c) e) = None) as Em by (apply (uncopied h0 cs cn HA _ HR); [congruence|assumption]).
      destruct (value_text_total c e) as (v & Hv); [apply (doc_ends _ HD); rewrite <- En; intro K; unfold is_element in He; rewrite K in He; contradiction|].
      exists v. apply wv_own; [assumption|]. destruct (input_is HP) as [<- _]. inversion Hv as [? ? _ Hp|? m ? Hm]; subst; [assumption|unfold mirrors in Hm; congruence].
    - destruct (template_elem _ _ _ Ht) as [_ Kt]. assert (tn = hget (c_heap c) t) as Et by (eapply final_fun; [eassumption|apply (elem_final h0 _ HR t Kt)]).
      destruct IH as (v & Hv); [rewrite Et; now apply (of_kind_res h0 _ HR false t)|assumption|]. exists v. apply (wv_copy _ _ e t); [now apply (template_res h0 _ HR)|assumption].
  Qed.
  Lemma value_whole s o cl e : reach c s -> names s o cl e -> has_value cl -> forall v, whole_value inp (c_heap c) e v ->
    forall A (ld : loader A) req, snd (value_of o ld req s) = value_outcome c e ld req v.
  Proof.
    intros Hs HN Hcl v Hv A ld req. destruct (value_loaded HP s o cl e Hs HN Hcl) as (w & Hw & E). rewrite E. f_equal.
    apply (value_text_one HP e); [assumption|]. destruct (parsed_copies HP) as (h0 & cs & cn & HA & Hr & HR).
    destruct (value_kind s o cl e Hs HN Hcl) as [[K1 K2]|[K1 K2]]; [eapply whole_value_text; eassumption|].
    inversion Hv as [? ? _ Hp|? t ? Ht]; subst; [now apply vt_own|]. destruct Ht as (k & (_ & _ & Hk) & _). congruence.
  Qed.
  Lemma value_is_whole s o cl e : reach c s -> names s o cl e -> has_value cl -> exists! v, whole_value inp (c_heap c) e v.
  Proof.
    intros Hs HN Hcl. destruct (parsed_copies HP) as (h0 & cs & cn & HA & Hr & HR).
    assert (forall v, whole_value inp (c_heap c) e v -> value_text inp (c_heap c) e v) as K.
    { intros v Hv. destruct (value_kind s o cl e Hs HN Hcl) as [[K1 K2]|[K1 K2]]; [eapply whole_value_text; eassumption|].
      inversion Hv as [? ? _ Hp|? t ? Ht]; subst; [now apply vt_own|]. destruct Ht as (k & (_ & _ & Hk) & _). congruence. }
    assert (exists v, whole_value inp (c_heap c) e v) as (v & Hv).
    { destruct (value_kind s o cl e Hs HN Hcl) as [[K1 K2]|[K1 K2]]; [now apply whole_value_total|].
      destruct (value_loaded HP s o cl e Hs HN Hcl) as (w & Hw & _). exists w. apply wv_own; [assumption|]. inversion Hw as [? ? _ Hp|? m ? Hm]; subst; [assumption|unfold mirrors in Hm; congruence]. }
    exists v. split; [assumption|]. intros w Hw. apply (value_text_one HP e); auto.
  Qed.
End Parsed.
