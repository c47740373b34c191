(** LookupLines: lookup by line; the ranges lookup picks. *)
From Coq Require Import ZArith.
From Verif Require Import Base Types Scan Analyzer HeapFacts AnalyzerInv SpecText AnalyzerText AnalyzerTiles AnalyzerLines SpecTree AnalyzerTree AnalyzerBlocks
  Resolver Reporter Errors Context Lookup SpecLookup LookupDoc LookupProofs LookupFound.

(** * Ranges *)

Section Pick.
  Local Open Scope Z_scope.
  Definition pick_step (i : Z) (a : Z * option rname) (x : rname * (nat * nat)) : Z * option rname :=
    let '(rightmost, found) := a in
    let '(name, (b, e)) := x in
    if rname_eqb name R_line then a
    else if (Z.of_nat b <=? i) && (i <=? Z.of_nat e) && (rightmost <=? Z.of_nat b)
    then (i, Some name)
    else a.

  Lemma pick_fold i b0 rs : Forall (fun x => fst x <> R_line -> b0 <= Z.of_nat (fst (snd x))) rs ->
    let a := fold_left (pick_step i) rs (b0, None) in
    (a = (b0, None) \/ exists n, a = (i, Some n)) /\ picked rs i (snd a).
  Proof.
    induction rs as [|x rs IH] using rev_ind; intro Hb.
    - cbn. split; [now left|]. now constructor.
    - apply Forall_app in Hb as [Hb1 Hb2]. specialize (IH Hb1). rewrite fold_left_app. cbn zeta in *. cbn [fold_left].
      remember (fold_left (pick_step i) rs (b0, None)) as a eqn:Ea. clear Ea. destruct IH as [Ha Hp].
      assert (forall nm s, x = (nm, s) -> ~ candidate_range within i x -> picked (rs ++ [x]) i (snd a)) as Hskip.
      { intros nm s -> Hc. assert (~ candidate_range at_begin i (nm, s)) as Hc' by (intros [C1 C2]; apply Hc; split; [exact C1|]; unfold at_begin, within in *; cbn in *; lia).
        destruct Hp as [H|l1 y l2 -> H1 H2|l1 y l2 -> H1 H2 H3].
        - apply picked_none. apply Forall_app. split; [assumption|]. now repeat constructor.
        - apply (picked_begin _ _ l1 y (l2 ++ [(nm, s)])); [now rewrite <- app_assoc|assumption|]. apply Forall_app. split; [assumption|]. now repeat constructor.
        - apply (picked_first _ _ l1 y (l2 ++ [(nm, s)])); [now rewrite <- app_assoc|assumption|assumption|]. apply Forall_app. split; [assumption|]. now repeat constructor. }
      destruct x as [nm [b e]]. destruct a as [rm fo]. unfold pick_step. cbn [snd] in *.
      destruct (rname_eqb nm R_line) eqn:En.
      { split; [assumption|]. apply (Hskip nm (b, e) eq_refl). intros [C _]. apply C. now apply rname_eqb_eq. }
      assert (nm <> R_line) as Hn by (intro; subst; discriminate).
      destruct (Z.leb_spec (Z.of_nat b) i) as [H1|H1]; cbn [andb]; [|split; [assumption|]; apply (Hskip nm (b, e) eq_refl); intros [_ C]; unfold within in C; cbn in C; lia].
      destruct (Z.leb_spec i (Z.of_nat e)) as [H2|H2]; cbn [andb]; [|split; [assumption|]; apply (Hskip nm (b, e) eq_refl); intros [_ C]; unfold within in C; cbn in C; lia].
      assert (candidate_range within i (nm, (b, e))) as Hw by (split; [exact Hn|unfold within; cbn; lia]).
      destruct Ha as [Ha|(n & Ha)]; injection Ha as -> ->.
      + assert (b0 <= Z.of_nat b) as Hbb by (inversion_clear Hb2 as [|? ? G _]; cbn in G; auto).
        destruct (Z.leb_spec b0 (Z.of_nat b)) as [_|]; [|lia]. split; [right; eauto|]. cbn [snd].
        inversion Hp as [H| |]; subst.
        destruct (Z.eq_dec (Z.of_nat b) i) as [<-|Hne].
        * apply (picked_begin _ _ rs (nm, (b, e)) []); [reflexivity| |constructor]. split; [exact Hn|]. unfold at_begin. cbn. lia.
        * apply (picked_first _ _ rs (nm, (b, e)) []); [reflexivity|exact Hw|exact H|]. apply Forall_app. split.
          -- eapply Forall_impl; [|exact H]. intros y Hy [C1 C2]. apply Hy. split; [exact C1|]. unfold at_begin, within in *. lia.
          -- repeat constructor. intros [_ C]. unfold at_begin in C. cbn in C. lia.
      + destruct (Z.leb_spec i (Z.of_nat b)) as [H3|H3].
        * split; [right; eauto|]. cbn [snd]. apply (picked_begin _ _ rs (nm, (b, e)) []); [reflexivity| |constructor].
          split; [exact Hn|]. unfold at_begin. cbn. lia.
        * split; [right; eauto|]. cbn [snd].
          assert (~ candidate_range at_begin i (nm, (b, e))) as Hc' by (intros [_ C]; unfold at_begin in C; cbn in C; lia).
          inversion Hp as [|l1 y l2 E G1 G2 G3|l1 y l2 E G1 G2 G3 G4]; subst.
          -- apply (picked_begin _ _ l1 y (l2 ++ [(nm, (b, e))])); [now rewrite <- app_assoc|assumption|]. apply Forall_app. split; [assumption|]. now repeat constructor.
          -- apply (picked_first _ _ l1 y (l2 ++ [(nm, (b, e))])); [now rewrite <- app_assoc|assumption|assumption|]. apply Forall_app. split; [assumption|]. now repeat constructor.
  Qed.

  Theorem pick_range_ok inp rs i : nested inp rs -> picked rs i (pick_range rs i).
  Proof.
    intro Hn. destruct (nested_line _ _ Hn) as [_ H]. apply (pick_fold i (Z.of_nat (fst (line_range rs)))).
    rewrite Forall_forall. intros [nm s] Hin _. cbn. specialize (H nm s Hin). lia.
  Qed.
  Lemma picked_within rs i nm : picked rs i (Some nm) -> nm <> R_line /\ exists s, In (nm, s) rs /\ within s i.
  Proof.
    intro H. inversion H as [|l1 [n s] l2 -> [C1 C2] _|l1 [n s] l2 -> [C1 C2] _ _]; subst; cbn in *; (split; [assumption|]; exists s; split; [apply in_or_app; right; now left|]); auto.
    unfold at_begin, within in *. lia.
  Qed.
End Pick.

(** * Lookup by line always gives a result *)

Section Doc.
  Context (inp : text) (r : heap) (L : LDoc inp r).
  Local Notation nd := (hget r).

  Definition numbered_at (l : nat) (m : lmatch) : Prop :=
    lm_element m < length r /\ match lm_instr m with Some ins => 0 < lm_element m /\ line_numbered (nd (lm_element m)) l (i_ranges ins) | None => True end.
  Definition some_at (l : nat) (o : option lmatch) : Prop := match o with Some m => numbered_at l m | None => True end.

  Lemma at_here x l : 0 < x < length r -> n_line (nd x) = l -> numbered_at l (here r x).
  Proof. intros Hx E. split; [apply Hx|]. split; [apply Hx|]. left. split; [reflexivity|exact E]. Qed.
  Lemma at_there x l k : 0 < x < length r -> In k (rest (nd x)) -> l_line k = l -> numbered_at l (there x k).
  Proof. intros Hx Hk E. split; [apply Hx|]. split; [apply Hx|]. right. exists k. auto. Qed.
  Lemma at_nowhere x l : x < length r -> numbered_at l (nowhere x).
  Proof. intro Hx. split; [exact Hx|exact I]. Qed.

  Lemma conts_total x l : 0 < x < length r -> forall cs, (forall k, In k cs -> In k (rest (nd x))) ->
    some_at l ((fix go cs := match cs with
                   | [] => None
                   | c :: cs' =>
                       if Nat.eqb l (l_line c) then Some (there x c)
                       else if Nat.ltb l (l_line c) then Some (nowhere x)
                       else go cs'
                   end) cs).
  Proof.
    intros Hx. induction cs as [|k ks IH]; intro Hin; [exact I|].
    destruct (Nat.eqb_spec l (l_line k)) as [->|].
    - apply at_there; auto. apply Hin. now left.
    - destruct (Nat.ltb_spec l (l_line k)); [apply at_nowhere; lia|]. apply IH. intros. apply Hin. now right.
  Qed.
  Lemma field_total x l : 0 < x < length r -> n_conts (nd x) <> Some [] -> exists o, check_field_by_line r x l = Ok o /\ some_at l o.
  Proof.
    intros Hx Hc. unfold check_field_by_line. cbn zeta. destruct (Nat.ltb_spec l (n_line (nd x))); [eexists; split; [reflexivity|exact I]|].
    destruct (Nat.eqb_spec l (n_line (nd x))) as [->|].
    { eexists. split; [reflexivity|]. now apply at_here. }
    destruct (n_conts (nd x)) as [[|c cs]|] eqn:Ec; [congruence| |eexists; split; [reflexivity|exact I]].
    rewrite last_of_last. cbn [bind]. destruct (Nat.ltb_spec (l_line (last cs c)) l); [eexists; split; [reflexivity|exact I]|].
    match goal with |- exists o, Ok ?t = Ok o /\ _ => exists t end. split; [reflexivity|].
    apply (conts_total x l Hx (c :: cs)). intros k Hk. unfold rest. rewrite Ec. apply in_or_app. now left.
  Qed.

  Lemma multiline_total x l : 0 < x < length r -> n_type (nd x) = MULTILINE_FIELD_BEGIN -> exists o, check_multiline_by_line r x l = Ok o /\ some_at l o.
  Proof.
    intros Hx Hty. unfold check_multiline_by_line. cbn zeta. destruct (ld_ml _ _ L x Hx Hty) as [_ Hn].
    pose proof (ld_shape _ _ L x ltac:(lia)) as (_ & _ & _ & Hs). rewrite Hty in Hs. destruct Hs as (_ & _ & Hc & _ & He).
    destruct (n_end (nd x)) as [e|] eqn:Ee; [|congruence]. cbn [key_or bind].
    assert (rest (nd x) = ml_rest (nd x)) as Er by (unfold rest, ml_rest; rewrite Hc; reflexivity).
    assert (ml_rest (nd x) = olist (n_lines (nd x)) ++ [e]) as Em by (unfold ml_rest; now rewrite Ee).
    destruct (Nat.ltb_spec l (n_line (nd x))); [eexists; split; [reflexivity|exact I]|]. cbn [orb].
    destruct (Nat.ltb_spec (l_line e) l); [eexists; split; [reflexivity|exact I]|].
    destruct (Nat.eqb_spec l (n_line (nd x))) as [->|]; [eexists; split; [reflexivity|]; apply at_here; [lia|reflexivity]|].
    destruct (Nat.eqb_spec l (l_line e)) as [->|].
    { eexists. split; [reflexivity|]. apply at_there; auto. rewrite Er, Em. apply in_or_app. right. now left. }
    destruct (n_lines (nd x)) as [ls|] eqn:El.
    - cbn [key_or bind]. eexists. split; [reflexivity|]. destruct (find (fun k => l_line k =? l) ls) as [k|] eqn:Ef; [|split; [cbn; lia|exact I]].
      apply find_some in Ef as [F1 F2]. apply Nat.eqb_eq in F2. apply (at_there x l k); auto. rewrite Er, Em. apply in_or_app. now left.
    - exfalso. rewrite Em in Hn. cbn in Hn. specialize (Hn 0 e eq_refl). lia.
  Qed.

  Lemma parts_total g l : g < length r -> forall es, (forall c, In c es -> g < c < length r /\ n_conts (nd c) <> Some []) ->
    exists o, (fix go es :=
               match es with
               | [] => Ok None
               | e :: es' =>
                   if Nat.eqb l (n_line (nd e)) then Ok (Some (here r e))
                   else if Nat.ltb l (n_line (nd e)) then Ok (Some (nowhere g))
                   else
                     do r <- check_field_by_line r e l;
                     match r with Some m => Ok (Some m) | None => go es' end
               end) es = Ok o /\ some_at l o.
  Proof.
    intros Hg. induction es as [|k ks IH]; intro Hes; [eexists; split; [reflexivity|exact I]|].
    destruct (Hes k ltac:(now left)) as [K1 K2].
    destruct (Nat.eqb_spec l (n_line (nd k))) as [->|]; [eexists; split; [reflexivity|]; apply at_here; [lia|reflexivity]|].
    destruct (Nat.ltb_spec l (n_line (nd k))); [eexists; split; [reflexivity|]; apply at_nowhere; lia|].
    destruct (field_total k l ltac:(lia) K2) as (o & O1 & O2). rewrite O1. cbn [bind]. destruct o as [m|]; [eexists; split; [reflexivity|exact O2]|].
    apply IH. intros c Hc. apply Hes. now right.
  Qed.
  Lemma group_total g es l : 0 < g < length r -> es <> Some [] ->
    (forall c, In c (olist es) -> g < c < length r /\ n_conts (nd c) <> Some []) -> exists o, check_group_by_line r g es l = Ok o /\ some_at l o.
  Proof.
    intros Hg Hne Hes. unfold check_group_by_line. cbn zeta. destruct (Nat.ltb_spec l (n_line (nd g))); [eexists; split; [reflexivity|exact I]|].
    destruct (Nat.eqb_spec l (n_line (nd g))) as [->|]; [eexists; split; [reflexivity|]; apply at_here; [lia|reflexivity]|].
    destruct es as [[|x es]|]; [congruence| |eexists; split; [reflexivity|exact I]]. rewrite last_of_last. cbn [bind].
    destruct (Nat.ltb_spec (n_line (nd (last es x))) l); [eexists; split; [reflexivity|exact I]|]. cbn [olist] in Hes. clear Hne.
    apply (parts_total g l ltac:(lia) (x :: es) Hes).
  Qed.

  (** the facts used for an element of a section *)
  Lemma child_shape s e : s < length r -> In e (n_elements (nd s)) -> s < e < length r.
  Proof.
    intros Hs Hin. rewrite (ld_elems _ _ L s Hs) in Hin. apply (in_elems r) in Hin as (E1 & E2 & _).
    pose proof (child_pos inp r L _ _ E1 E2). lia.
  Qed.
  Lemma parts_shape g : 0 < g < length r -> (forall c, In c (olist (n_items (nd g))) -> g < c < length r /\ n_conts (nd c) <> Some []) /\
    (forall c, In c (olist (n_entries (nd g))) -> g < c < length r /\ n_conts (nd c) <> Some []).
  Proof.
    intro Hg. split; intros c Hc; [rewrite (ld_items _ _ L g ltac:(lia)) in Hc; apply (in_items r) in Hc|rewrite (ld_entries _ _ L g ltac:(lia)) in Hc; apply (in_entries r) in Hc];
      destruct Hc as (C1 & C2 & _); pose proof (child_pos inp r L _ _ C1 C2); (split; [lia|]); now apply (ld_shape _ _ L c).
  Qed.
  Lemma find_rev_in {A} (f : A -> bool) l x : find f (rev l) = Some x -> In x l /\ f x = true.
  Proof. intro H. apply find_some in H as [H1 H2]. split; [now apply in_rev|assumption]. Qed.

  Theorem line_total l : forall fuel s, s < length r -> length r <= fuel + s -> exists m, check_in_section_by_line r fuel s l = Ok m /\ numbered_at l m.
  Proof.
    induction fuel as [|fuel IH]; intros s Hs Hf; [lia|]. cbn [check_in_section_by_line].
    assert (numbered_at l (nowhere s)) as Hno by now apply at_nowhere.
    destruct (find _ (rev (n_elements (nd s)))) as [e|] eqn:Ef; [|eauto]. apply find_rev_in in Ef as [He _]. apply child_shape in He; [|assumption]. cbn zeta.
    destruct (Nat.eqb_spec (n_line (nd e)) l) as [<-|]; [eexists; split; [reflexivity|]; apply at_here; [lia|reflexivity]|].
    destruct (ld_shape _ _ L e ltac:(lia)) as (D1 & D2 & D3 & D4). destruct (parts_shape e ltac:(lia)) as [P1 P2].
    assert (forall x, (exists o, x = Ok o /\ some_at l o) -> exists m, (do r0 <- x; match r0 with Some m => Ok m | None => Ok (nowhere s) end) = Ok m /\ numbered_at l m) as Hor.
    { intros x (o & -> & O). cbn [bind]. destruct o; eauto. }
    destruct (n_type (nd e)) eqn:Ety; eauto.
    - apply Hor. apply field_total; [lia|assumption].
    - apply Hor. apply group_total; [lia|assumption|exact P2].
    - apply Hor. apply group_total; [lia|assumption|exact P1].
    - destruct (opt_is (n_template (nd e))); [eauto|]. apply Hor. apply multiline_total; [lia|assumption].
    - apply IH; lia.
  Qed.

  Theorem by_line l : exists m, check_in_section_by_line r (S (length r)) 0 l = Ok m /\ numbered_at l m.
  Proof. apply line_total; [apply (s_len _ (ld_s _ _ L))|lia]. Qed.
End Doc.
