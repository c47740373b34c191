(** PropRawProofs: the statements of PropRaw for parsed documents. *)
From Coq Require Import Relations Permutation.
From Verif Require Import Base Types Messages Resolver Reporter Errors Context Elements SpecTree SpecResolve SpecRead SpecApi SpecQuery SpecLoad SpecLinks SpecRaw Reads ResolverIndex ResolverFinal ResolverLinks ReadLinks
  ApiDoc ApiInv ApiState QueryProofs Session SessionInv SessionRun CopiesProofs PropQueryProofs ParseOutcome PropParseProofs PropCopiesProofs RawProofs.

Lemma goes_trans a b d : goes_on a b -> goes_on b d -> goes_on a d.
Proof. induction 1 as [|s x s' H1 H2 H3 IH]; [auto|]. intro H. apply (go_call s x); auto. Qed.
Lemma reach_on c s x : reach c s -> subject x < length (s_objs s) -> callable x (o_class (oget s (subject x))) -> reach c (fst (run_call x s)).
Proof. intros (s0 & H0 & Hg) H1 H2. exists s0. split; [assumption|]. eapply goes_trans; [exact Hg|]. apply (go_call s x); auto using go_nil. Qed.
Lemma run_ret {A} (m : sM A) s : fst (mbind m (fun _ => ret tt) s) = fst (m s).
Proof. unfold mbind. now destruct (m s) as [s' [a|e]]. Qed.

Section Parsed.
  Context {inp : text} {loc : locale} {rk : reporter_kind} {src : option text} {c : ctx} (HP : parse_context inp loc rk src = Ok c).
  Let r := c_heap c.
  Let HD : Doc r := doc_of_parse inp loc rk src c HP.

  Lemma section_links e : is_section (hget r e) -> (forall m, mirrors r e m -> is_section (hget r m) /\ clos_trans nat (draws_on r) e m) /\
    (forall t, extends r e t -> is_section (hget r t) /\ clos_trans nat (draws_on r) e t).
  Proof.
    destruct (parsed_copies HP) as (h0 & cs & cn & HA & Hr & HR). intro Hs. pose proof (resolved_links h0 cs cn r HA Hr) as HL.
    destruct (Nat.lt_ge_cases e (length h0)) as [He|He].
    2:{ rewrite (over h0 r HR e He) in Hs. unfold hget, is_section in Hs. destruct e; discriminate. }
    assert (sec h0 e) as Se by (apply (sec_text h0 r e (lk_text _ _ HL) He Hs)). destruct (lk_ok h0 r HL e Se) as [HM HX].
    assert (forall t, sec h0 t -> is_section (hget r t)) as K.
    { intros t [Ht Hc]. apply (section_res h0 r HR). now apply AnalyzerTree.ncls_sec. }
    split; [intros m Hm; destruct (HM m Hm)|intros t [Hm Ht]; destruct (HX t Ht)]; (split; [now apply K|now apply (draws_plus_res h0 r HR)]).
  Qed.
  Lemma sections_plain : no_section_copies r -> forall e, is_section (hget r e) -> plain r e.
  Proof.
    intros HN e He. assert (forall j, ~ draws_on r e j) as ND.
    { assert (forall i j, ~ merged r i j) as NM.
      { intros i j H. induction H as [i j (k & (_ & H1 & H2) & _) Hd|]; [|assumption]. cbn in H1. specialize (HN i H1). congruence. }
      intros j [(k & (_ & H1 & H2) & _)|H]; [specialize (HN e H1); congruence|now apply NM in H]. }
    assert (forall j, ~ clos_trans nat (draws_on r) e j) as NC.
    { intros j H. apply clos_trans_t1n in H. inversion H; subst; eapply ND; eassumption. }
    destruct (section_links e He) as [HM HX]. unfold plain. destruct (n_mirror (hget r e)) as [m|] eqn:Em.
    { destruct (HM m Em) as [_ K]. now apply NC in K. }
    destruct (n_extend (hget r e)) as [t|] eqn:Et; [|auto]. destruct (HX t (conj Em Et)) as [_ K]. now apply NC in K.
  Qed.
  Lemma no_copies_end : no_section_copies r -> forall e, ends r e.
  Proof.
    intros HN e. assert (is_section (hget r e) \/ n_type (hget r e) <> SECTION) as [H|H] by (unfold is_section; destruct (n_type (hget r e)); (now left) || (right; discriminate)).
    - apply en_plain. now apply sections_plain.
    - now apply (doc_ends r HD).
  Qed.

  Section Ends.
    Let HR : forall s, reach c s -> Inv c s := inv_reach c HD.

    Lemma raw_on s o cl e : reach c s -> names s o cl e -> Cached inp r [] (c_heap (s_ctx s)) /\ snd (raw_of o s) = snd (raw inp (S (length r)) e (c_heap (s_ctx s))).
    Proof.
      intros Hs (_ & _ & <-). pose proof (HR s Hs) as HI. destruct (iv_ctx c s HI) as [C1 C2]. destruct (input_is HP) as [Ei _].
      assert (c_input (s_ctx s) = inp) as E1. { rewrite C1, <- Ei. reflexivity. } rewrite Ei in C2. split; [exact C2|].
      unfold raw_of, mbind, the_obj, the_ctx, hfuel, on_heap. unfold mbind, the_ctx, ret. rewrite E1. pose proof (ca_len _ _ _ _ C2) as E2. fold r in E2. rewrite E2.
      destruct (raw inp _ _ _) as [h v]. reflexivity.
    Qed.
    Lemma raw_complete s o cl e x : reach c s -> names s o cl e -> raw_tree inp r e x -> snd (raw_of o s) = Ok x.
    Proof.
      intros Hs HN Hx. destruct (raw_on s o cl e Hs HN) as [HC ->].
      destruct (proj1 (raw_runs r HD inp) e x Hx (S (length r)) _ HC (height_bound r HD inp e x Hx)) as (h' & -> & _). reflexivity.
    Qed.
    Lemma raw_only s o cl e x : (forall e, ends r e) -> no_mirrored_sections r -> reach c s -> names s o cl e -> snd (raw_of o s) = Ok x -> raw_tree inp r e x.
    Proof.
      intros HE HM Hs HN Hx. destruct (raw_on s o cl e Hs HN) as [HC E]. rewrite E in Hx. destruct (raw inp (S (length r)) e (c_heap (s_ctx s))) as [h' v] eqn:Er. cbn in Hx. subst v.
      pose proof (HR s Hs) as HI. assert (e < length r) as He. { destruct HN as (N1 & _ & <-). apply (oo_instr c s o _ (iv_obj c s HI o N1)). }
      eapply (raw_sound r HD inp HE HM); [|exact HC|now apply (doc_type r HD)|exact He|exact Er]. intros e' t H1 H2. now apply (section_links e' H1).
    Qed.
    Lemma raw_same s s' o o' cl cl' e x : (forall e, ends r e) -> no_mirrored_sections r -> reach c s -> reach c s' -> names s o cl e -> names s' o' cl' e ->
      snd (raw_of o s) = Ok x -> snd (raw_of o' s') = Ok x.
    Proof. intros HE HM Hs Hs' HN HN' Hx. eapply raw_complete; [exact Hs'|exact HN'|]. exact (raw_only s o cl e x HE HM Hs HN Hx). Qed.
    Lemma member_trees l xs : raw_trees inp r l xs -> Forall2 (raw_tree inp r) l xs.
    Proof. induction 1; constructor; auto. Qed.
    Lemma forall2_with {A B C} (P : A -> B -> Prop) (Q : B -> C -> Prop) (R : A -> C -> Prop) (HPQ : forall a b d, P a b -> Q b d -> R a d) l l' l'' :
      Forall2 P l l' -> Forall2 Q l' l'' -> Forall2 R l l''.
    Proof. intro H. revert l''. induction H as [|a b l l' Hab H IH]; intros l'' G; inversion G; subst; constructor; eauto. Qed.

    (** what the members of raw() are *)
    Lemma raw_sections s o e x s' ys : reach c s -> names s o CSection e -> plain r e -> raw_tree inp r e x -> section_elements o None s = (s', Ok ys) ->
      Forall2 (fun y z => snd (raw_of y s') = Ok z) ys (raw_members x).
    Proof.
      intros Hs HN Hp Hx E. assert (reach c s') as Hs'. { pose proof (reach_on c s (ListElements o None) Hs (proj1 HN) (proj1 (proj2 HN))) as G. cbn [run_call] in G. rewrite run_ret, E in G. exact G. }
      assert (element_list r e (own_elements r e)) as HL by now apply li_own. set (L := own_elements r e) in *. destruct (query_elements HP s o e None L Hs HN HL) as (ys' & E' & F). rewrite E in E', F.
      cbn in E', F. injection E' as <-. assert (filter (keyed (c_heap c) None) L = L) as EL. { clear. induction L as [|a L IH]; [reflexivity|]. cbn. now f_equal. }
      rewrite EL in F.
      assert (forall l xs, raw_list r e l -> raw_trees inp r l xs -> Forall2 (fun y z => snd (raw_of y s') = Ok z) ys xs) as G.
      { intros l xs Hl Hxs. assert (L = l) as -> by (apply (raw_order r HD e L l HL Hl); assumption).
        eapply forall2_with; [|exact F|apply member_trees; exact Hxs]. intros y i z (K1 & K2 & K3 & _) Hz. eapply raw_complete; [exact Hs'| |exact Hz]. repeat split; eassumption. }
      pose proof (HR s Hs) as HI. destruct HN as (N1 & N2 & N3). pose proof (oo_class c s o _ (iv_obj c s HI o N1)) as CF. rewrite N2, N3 in CF. cbn in CF. fold r in CF.
      inversion Hx; subst; cbn [raw_members]; try (destruct CF; congruence); try (destruct CF, H; congruence); eapply G; eassumption.
    Qed.
    Lemma forall2_perm {A B} (P : A -> B -> Prop) l l' : Permutation l l' -> forall xs', Forall2 P l' xs' -> exists xs, Permutation xs xs' /\ Forall2 P l xs.
    Proof.
      induction 1 as [|a l l' H IH|a b l|l l1 l2 H1 IH1 H2 IH2]; intros xs' F.
      - inversion F; subst. exists []. auto.
      - inversion F as [|? y ? ys Hy Hys]; subst. destruct (IH ys Hys) as (xs & P1 & F1). exists (y :: xs). auto.
      - inversion F as [|? y ? ys Hy Hys]; subst. inversion Hys as [|? z ? zs Hz Hzs]; subst. exists (z :: y :: zs). split; [apply perm_swap|auto].
      - destruct (IH2 xs' F) as (ys & P2 & F2). destruct (IH1 ys F2) as (xs & P1 & F1). exists xs. split; [eapply Permutation_trans; eassumption|assumption].
    Qed.
    Lemma raw_set s o e x s' ys L : reach c s -> names s o CSection e -> element_list r e L -> raw_tree inp r e x -> section_elements o None s = (s', Ok ys) ->
      exists zs, Permutation zs (raw_members x) /\ Forall2 (fun y z => snd (raw_of y s') = Ok z) ys zs.
    Proof.
      intros Hs HN HL Hx E. assert (reach c s') as Hs'. { pose proof (reach_on c s (ListElements o None) Hs (proj1 HN) (proj1 (proj2 HN))) as G. cbn [run_call] in G. rewrite run_ret, E in G. exact G. }
      destruct (query_elements HP s o e None L Hs HN HL) as (ys' & E' & F). rewrite E in E', F.
      cbn in E', F. injection E' as <-. assert (filter (keyed (c_heap c) None) L = L) as EL. { clear. induction L as [|a L IH]; [reflexivity|]. cbn. now f_equal. }
      rewrite EL in F.
      assert (forall l xs, raw_list r e l -> raw_trees inp r l xs -> exists zs, Permutation zs xs /\ Forall2 (fun y z => snd (raw_of y s') = Ok z) ys zs) as G.
      { intros l xs Hl Hxs. destruct (raw_order r HD e L l HL Hl) as [HP2 _]. destruct (forall2_perm (raw_tree inp r) L l HP2 xs (member_trees l xs Hxs)) as (zs & P1 & F1).
        exists zs. split; [assumption|].
        eapply forall2_with; [|exact F|exact F1]. intros y i z (K1 & K2 & K3 & _) Hz. eapply raw_complete; [exact Hs'| |exact Hz]. repeat split; eassumption. }
      pose proof (HR s Hs) as HI. destruct HN as (N1 & N2 & N3). pose proof (oo_class c s o _ (iv_obj c s HI o N1)) as CF. rewrite N2, N3 in CF. cbn in CF. fold r in CF.
      inversion Hx; subst; cbn [raw_members]; try (destruct CF; congruence); try (destruct CF, H; congruence); eapply G; eassumption.
    Qed.
    Lemma raw_items s o e x s' ys : reach c s -> names s o CList e -> n_type (hget r e) = LIST -> raw_tree inp r e x -> list_items o s = (s', Ok ys) ->
      Forall2 (fun y z => snd (raw_of y s') = Ok z) ys (raw_members x).
    Proof.
      intros Hs HN Ht Hx E. assert (reach c s') as Hs'. { pose proof (reach_on c s (ListItems o) Hs (proj1 HN) (proj1 (proj2 HN))) as G. cbn [run_call] in G. rewrite run_ret, E in G. exact G. }
      inversion Hx as [| | | |? ? k l xs T Hc Hk Hl Hxs| | |]; subst; try congruence; [destruct H; congruence|].
      destruct (query_items HP s o e l Hs HN Hl) as (ys' & E' & F). rewrite E in E', F. cbn in E', F. injection E' as <-.
      eapply forall2_with; [|exact F|apply member_trees; exact Hxs]. intros y i z (K1 & K2 & K3 & _) Hz. eapply raw_complete; [exact Hs'| |exact Hz]. repeat split; eassumption.
    Qed.
    Lemma raw_entries s o e x s' ys : reach c s -> names s o CFieldset e -> n_type (hget r e) = FIELDSET -> raw_tree inp r e x -> fieldset_entries o None s = (s', Ok ys) ->
      Forall2 (fun y z => snd (raw_of y s') = Ok z) ys (raw_members x).
    Proof.
      intros Hs HN Ht Hx E. assert (reach c s') as Hs'. { pose proof (reach_on c s (ListEntries o None) Hs (proj1 HN) (proj1 (proj2 HN))) as G. cbn [run_call] in G. rewrite run_ret, E in G. exact G. }
      inversion Hx as [| | | | |? ? k l xs T Hc Hk Hl Hxs| |]; subst; try congruence; [destruct H; congruence|].
      destruct (query_entries HP s o e None l Hs HN Hl) as (ys' & E' & F). rewrite E in E', F. cbn in E', F. injection E' as <-.
      assert (filter (keyed (c_heap c) None) l = l) as EL. { clear. induction l as [|a L IH]; [reflexivity|]. cbn. now f_equal. } rewrite EL in F.
      eapply forall2_with; [|exact F|apply member_trees; exact Hxs]. intros y i z (K1 & K2 & K3 & _) Hz. eapply raw_complete; [exact Hs'| |exact Hz]. repeat split; eassumption.
    Qed.
  End Ends.

  Lemma raw_order_is e L L' : element_list r e L -> raw_list r e L' -> Permutation L L' /\ (plain r e -> L = L').
  Proof. apply (raw_order r HD e). Qed.
  Lemma raw_one e x y : raw_tree inp r e x -> raw_tree inp r e y -> x = y.
  Proof. intros H G. exact (proj1 (raw_fun r HD inp) e x H y G). Qed.
  Lemma raw_total e : no_section_copies r -> (forall i, hollow_comment r i = false) -> e < length r -> exists x, raw_tree inp r e x.
  Proof.
    intros HN HH He. apply (raw_exists r HD inp); try assumption.
    - now apply sections_plain.
    - intros i x Hx. pose proof (doc_own r HD i x (or_introl Hx)) as Hp. destruct (doc_elements r HD i x Hx) as (Hl & _).
      destruct x as [|x]; [rewrite (doc_top r HD) in Hp; discriminate|]. destruct (doc_parent r HD (S x)) as (p & P1 & P2 & _); [lia|]. assert (p = i) as <- by congruence. assumption.
    - now apply (doc_type r HD).
    - intros H1 H2. destruct e as [|e]; [exfalso; apply H1, (doc_root r HD)|]. apply (doc_key r HD); [lia|assumption].
  Qed.
End Parsed.
