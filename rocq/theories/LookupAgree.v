(** LookupAgree: lookup by line finds what lookup by index finds. *)
From Coq Require Import ZArith.
From Verif Require Import Base Types Scan Analyzer HeapFacts AnalyzerInv SpecText AnalyzerText AnalyzerTiles AnalyzerLines SpecTree AnalyzerTree AnalyzerBlocks
  Resolver Reporter Errors Context Lookup SpecLookup LookupDoc LookupProofs LookupFound LookupLines.

(** * Positions and line numbers *)

Lemma feeds_mono inp a b : a <= b -> line_feeds_before inp a <= line_feeds_before inp b.
Proof. intro H. rewrite (feeds_split inp a b) by assumption. lia. Qed.
Lemma feeds_same inp a b : a <= b -> ~ In nl (slice inp a b) -> line_feeds_before inp b = line_feeds_before inp a.
Proof. intros H Hn. rewrite (feeds_split inp a b) by assumption. rewrite (no_feeds _ Hn). cbn. lia. Qed.
Lemma feeds_nl inp a : nth_error inp a = Some nl -> line_feeds_before inp (S a) = S (line_feeds_before inp a).
Proof. intro H. rewrite (feeds_split inp a (S a)) by lia. rewrite (slice_one _ _ _ H). change (filter (fun c => N.eqb c nl) [nl]) with [nl]. cbn [length]. lia. Qed.
Lemma skipn_plus {A} (l : list A) a b : skipn a (skipn b l) = skipn (a + b) l.
Proof.
  revert l. induction b as [|b IH]; intro l; [now rewrite Nat.add_0_r|]. destruct l as [|x l]; [now rewrite !skipn_nil|].
  replace (a + S b) with (S (a + b)) by lia. cbn. apply IH.
Qed.
Lemma slice_sub inp a b c d : a <= c -> d <= b -> ~ In nl (slice inp a b) -> ~ In nl (slice inp c d).
Proof.
  intros H1 H2 Hn Hi. apply Hn. unfold slice in *. destruct (Nat.le_gt_cases d c) as [H|H]; [replace (d - c) with 0 in Hi by lia; destruct Hi|].
  replace (skipn a inp) with (firstn (c - a) (skipn a inp) ++ skipn (c - a) (skipn a inp)) by apply firstn_skipn.
  rewrite skipn_plus. replace (c - a + a) with c by lia. rewrite firstn_app. apply in_or_app.
  destruct (Nat.le_gt_cases (length inp) c) as [G|G]; [rewrite skipn_all2 in Hi by assumption; rewrite firstn_nil in Hi; destruct Hi|].
  right. rewrite firstn_length, skipn_length. replace (b - a - Nat.min (c - a) (length inp - a)) with (b - c) by lia.
  replace (b - c) with ((d - c) + (b - d)) by lia. rewrite firstn_add. apply in_or_app. now left.
Qed.

Section Position.
  Context (inp : text) (l col i : nat) (HP : position inp l col i).

  Lemma begin_unique b : begins_line inp b -> line_feeds_before inp b = l -> b + col = i.
  Proof.
    destruct HP as (b' & B1 & B2 & B3 & B4 & B5). intros Hb H3. destruct (Nat.lt_trichotomy b b') as [G|[G|G]]; [|lia|]; exfalso.
    - destruct B1 as [->|B1]; [lia|]. pose proof (feeds_nl _ _ B1) as F. replace (S (b' - 1)) with b' in F by lia.
      pose proof (feeds_mono inp b (b' - 1) ltac:(lia)). lia.
    - destruct Hb as [->|Hb]; [lia|]. pose proof (feeds_nl _ _ Hb) as F. replace (S (b - 1)) with b in F by lia.
      pose proof (feeds_mono inp b' (b - 1) ltac:(lia)). lia.
  Qed.
  Lemma cmp b e n : begins_line inp b -> ends_line inp e -> b <= e -> e <= length inp -> single_line inp (b, e) -> n = line_feeds_before inp b ->
    Nat.ltb i b = Nat.ltb l n /\ Nat.ltb e i = Nat.ltb n l /\ (b <= i <= e -> b + col = i).
  Proof.
    intros Hb He Hbe Hlen Hs ->. destruct HP as (b' & B1 & B2 & B3 & B4 & B5). unfold single_line, at_range in Hs. cbn [fst snd] in Hs.
    assert (line_feeds_before inp i = l) as Hl by (rewrite B4; apply feeds_same; [lia|assumption]).
    assert (i < b -> l < line_feeds_before inp b) as H1.
    { intro H. destruct Hb as [->|Hb]; [lia|]. replace b with (S (b - 1)) by lia. rewrite (feeds_nl _ _ Hb).
      pose proof (feeds_mono inp i (b - 1) ltac:(lia)). lia. }
    assert (b <= i -> line_feeds_before inp b <= l) as H2 by (intro H; pose proof (feeds_mono inp b i H); lia).
    assert (b <= i <= e -> line_feeds_before inp b = l) as H3.
    { intro H. symmetry. rewrite <- Hl. apply feeds_same; [lia|]. apply (slice_sub inp b e); [lia|lia|assumption]. }
    assert (e < i -> line_feeds_before inp b < l) as H4.
    { intro H. destruct He as [->|He]; [lia|]. pose proof (feeds_nl _ _ He). pose proof (feeds_mono inp (S e) i ltac:(lia)).
      pose proof (feeds_mono inp b e Hbe). lia. }
    split; [|split].
    - destruct (Nat.ltb_spec i b), (Nat.ltb_spec l (line_feeds_before inp b)); lia.
    - destruct (Nat.ltb_spec e i), (Nat.ltb_spec (line_feeds_before inp b) l); lia.
    - intro H. apply begin_unique; auto.
  Qed.

  (** * The document *)

  Context (r : heap) (L : LDoc inp r).
  Local Notation nd := (hget r).
  Context (LN : forall x, 0 < x < length r -> single_line inp (line_range (n_ranges (nd x))) /\ n_line (nd x) = line_feeds_before inp (begins (nd x)) /\
    forall k, In k (rest (nd x)) -> l_line k = line_feeds_before inp (fst (leaf_line k))).

  Lemma nested_cmp rs n : nested inp rs -> single_line inp (line_range rs) -> n = line_feeds_before inp (fst (line_range rs)) ->
    Nat.ltb i (fst (line_range rs)) = Nat.ltb l n /\ Nat.ltb (snd (line_range rs)) i = Nat.ltb n l /\
    (fst (line_range rs) <= i <= snd (line_range rs) -> fst (line_range rs) + col = i).
  Proof.
    intros (b & e & E & H1 & H2 & H3 & H4 & _) Hs Hn. unfold line_range in *. rewrite E in *. cbn [fst snd] in *. now apply cmp.
  Qed.
  Lemma own_cmp x : 0 < x < length r -> Nat.ltb i (lb (nd x)) = Nat.ltb l (n_line (nd x)) /\ Nat.ltb (le_ (nd x)) i = Nat.ltb (n_line (nd x)) l.
  Proof.
    intro Hx. destruct (LN x Hx) as (N1 & N2 & _). destruct (ld_nested _ _ L x Hx) as [N _].
    destruct (nested_cmp _ _ N N1 N2) as (C1 & C2 & _). auto.
  Qed.
  Lemma leaf_cmp x k : 0 < x < length r -> In k (rest (nd x)) -> Nat.ltb i (llb k) = Nat.ltb l (l_line k) /\ Nat.ltb (lle k) i = Nat.ltb (l_line k) l.
  Proof.
    intros Hx Hk. destruct (LN x Hx) as (_ & _ & N2). destruct (ld_nested _ _ L x Hx) as [_ N]. rewrite Forall_forall in N.
    pose proof (ld_rest _ _ L x Hx) as R. unfold rest_single in R. rewrite Forall_forall in R.
    destruct (nested_cmp _ _ (N k Hk) (R k Hk) (N2 k Hk)) as (C1 & C2 & _). auto.
  Qed.
  Lemma on_col x rs : 0 < x < length r -> line_at (nd x) i rs -> fst (line_range rs) + col = i.
  Proof.
    intros Hx ([->|(k & Hk & ->)] & s & Es & Ho); destruct (LN x Hx) as (N1 & N2 & N3); destruct (ld_nested _ _ L x Hx) as [N N'].
    - destruct (nested_cmp _ _ N N1 N2) as (_ & _ & C). apply C. unfold line_range. rewrite Es. exact Ho.
    - rewrite Forall_forall in N'. pose proof (ld_rest _ _ L x Hx) as R. unfold rest_single in R. rewrite Forall_forall in R.
      destruct (nested_cmp _ _ (N' k Hk) (R k Hk) (N3 k Hk)) as (_ & _ & C). apply C. unfold line_range. rewrite Es. exact Ho.
  Qed.

  Lemma leb_of e n : Nat.ltb e i = Nat.ltb n l -> Nat.leb i e = Nat.leb l n.
  Proof. intro H. destruct (Nat.ltb_spec e i), (Nat.ltb_spec n l), (Nat.leb_spec i e), (Nat.leb_spec l n); auto; discriminate || lia. Qed.

  Lemma conts_agree x : 0 < x < length r -> forall cs, (forall k, In k cs -> In k (rest (nd x))) ->
    (fix go cs := match cs with
                   | [] => None
                   | c :: cs' =>
                       if Nat.eqb l (l_line c) then Some (there x c)
                       else if Nat.ltb l (l_line c) then Some (nowhere x)
                       else go cs'
                   end) cs =
    (fix go cs := match cs with
                   | [] => None
                   | c :: cs' =>
                       if Nat.ltb i (llb c) then Some (nowhere x)
                       else if Nat.leb i (lle c) then Some (there x c)
                       else go cs'
                   end) cs.
  Proof.
    intros Hx. induction cs as [|k cs IH]; intro Hin; [reflexivity|]. rewrite IH by (intros; apply Hin; now right).
    destruct (leaf_cmp x k Hx ltac:(apply Hin; now left)) as [-> C2]. rewrite (leb_of _ _ C2).
    destruct (Nat.eqb_spec l (l_line k)), (Nat.ltb_spec l (l_line k)), (Nat.leb_spec l (l_line k)); auto; lia.
  Qed.

  Lemma field_agree x : 0 < x < length r -> check_field_by_line r x l = check_field_by_index r x i.
  Proof.
    intros Hx. unfold check_field_by_line, check_field_by_index. cbn zeta. destruct (own_cmp x Hx) as [-> C2]. rewrite (leb_of _ _ C2).
    destruct (Nat.ltb_spec l (n_line (nd x))); [reflexivity|].
    destruct (Nat.eqb_spec l (n_line (nd x))), (Nat.leb_spec l (n_line (nd x))); auto; try lia.
    destruct (n_conts (nd x)) as [[|c cs]|] eqn:Ec; [reflexivity| |reflexivity]. rewrite last_of_last. unfold bind at 1 2.
    assert (forall k, In k (c :: cs) -> In k (rest (nd x))) as Hin by (intros k Hk; unfold rest; rewrite Ec; apply in_or_app; now left).
    destruct (leaf_cmp x (last cs c) Hx ltac:(apply Hin, last_in_cons)) as [_ ->].
    destruct (Nat.ltb_spec (l_line (last cs c)) l); [reflexivity|]. exact (f_equal Ok (conts_agree x Hx (c :: cs) Hin)).
  Qed.

  Lemma find_next (f : leaf -> nat) : forall ls n, (forall j k, nth_error ls j = Some k -> f k = n + j) -> n <= l ->
    find (fun k => Nat.eqb (f k) l) ls = find (fun k => Nat.leb l (f k)) ls.
  Proof.
    induction ls as [|k ls IH]; intros n Hn Hl; [reflexivity|]. cbn [find]. pose proof (Hn 0 k eq_refl) as H0. rewrite Nat.add_0_r in H0. rewrite H0.
    destruct (Nat.eqb_spec n l), (Nat.leb_spec l n); auto; try lia. apply (IH (S n)); [|lia]. intros j k' Hj. rewrite (Hn (S j) k' Hj). lia.
  Qed.
  Lemma find_same {A} (f g : A -> bool) ls : (forall k, In k ls -> f k = g k) -> find f ls = find g ls.
  Proof. induction ls as [|k ls IH]; intro H; [reflexivity|]. cbn. rewrite (H k) by now left. destruct (g k); [reflexivity|]. apply IH. intros. apply H. now right. Qed.

  Lemma multiline_agree x : 0 < x < length r -> n_type (nd x) = MULTILINE_FIELD_BEGIN -> check_multiline_by_line r x l = check_multiline_by_index r x i.
  Proof.
    intros Hx Hty. unfold check_multiline_by_line, check_multiline_by_index. cbn zeta. destruct (ld_ml _ _ L x Hx Hty) as [_ Hn].
    pose proof (ld_shape _ _ L x ltac:(lia)) as (_ & _ & _ & Hs). rewrite Hty in Hs. destruct Hs as (_ & _ & Hc & _ & He).
    destruct (n_end (nd x)) as [e|] eqn:Ee; [|congruence]. cbn [key_or bind].
    assert (rest (nd x) = ml_rest (nd x)) as Er by (unfold rest, ml_rest; rewrite Hc; reflexivity).
    assert (ml_rest (nd x) = olist (n_lines (nd x)) ++ [e]) as Em by (unfold ml_rest; now rewrite Ee).
    assert (In e (rest (nd x))) as Hine by (rewrite Er, Em; apply in_or_app; right; now left).
    destruct (own_cmp x Hx) as [-> C2]. rewrite (leb_of _ _ C2). destruct (leaf_cmp x e Hx Hine) as [C3 ->].
    assert (Nat.leb (llb e) i = Nat.leb (l_line e) l) as ->.
    { destruct (Nat.ltb_spec i (llb e)), (Nat.ltb_spec l (l_line e)), (Nat.leb_spec (llb e) i), (Nat.leb_spec (l_line e) l); auto; discriminate || lia. }
    destruct (Nat.ltb_spec l (n_line (nd x))); [reflexivity|]. cbn [orb]. destruct (Nat.ltb_spec (l_line e) l); [reflexivity|].
    destruct (Nat.eqb_spec l (n_line (nd x))), (Nat.leb_spec l (n_line (nd x))); auto; try lia.
    destruct (Nat.eqb_spec l (l_line e)), (Nat.leb_spec (l_line e) l); auto; try lia.
    destruct (n_lines (nd x)) as [ls|] eqn:El; [|reflexivity]. cbn [key_or bind]. do 4 f_equal.
    rewrite Em in Hn. cbn [olist] in *.
    rewrite (find_next l_line ls (S (n_line (nd x)))); [|intros j k Hj; apply Hn; rewrite nth_error_app1; [assumption|]; apply nth_error_Some; congruence|lia].
    apply find_same. intros k Hk. symmetry. apply leb_of. apply (leaf_cmp x k Hx). rewrite Er, Em. apply in_or_app. now left.
  Qed.

  Lemma parts_agree g : forall es, (forall c, In c es -> 0 < c < length r) ->
    (fix go es :=
               match es with
               | [] => Ok None
               | e :: es' =>
                   if Nat.eqb l (n_line (nd e)) then Ok (Some (here r e))
                   else if Nat.ltb l (n_line (nd e)) then Ok (Some (nowhere g))
                   else
                     do r <- check_field_by_line r e l;
                     match r with Some m => Ok (Some m) | None => go es' end
               end) es =
    (fix go es :=
               match es with
               | [] => Ok None
               | e :: es' =>
                   if Nat.ltb i (lb (nd e)) then Ok (Some (nowhere g))
                   else if Nat.leb i (le_ (nd e)) then Ok (Some (here r e))
                   else
                     do r <- check_field_by_index r e i;
                     match r with Some m => Ok (Some m) | None => go es' end
               end) es.
  Proof.
    induction es as [|k es IH]; intro Hin; [reflexivity|]. rewrite IH by (intros; apply Hin; now right).
    pose proof (Hin k ltac:(now left)) as Hk. destruct (own_cmp k Hk) as [-> C2]. rewrite (leb_of _ _ C2). rewrite (field_agree k Hk).
    destruct (Nat.eqb_spec l (n_line (nd k))), (Nat.ltb_spec l (n_line (nd k))), (Nat.leb_spec l (n_line (nd k))); auto; lia.
  Qed.

  Lemma group_agree g es : 0 < g < length r -> (forall c, In c (olist es) -> 0 < c < length r) -> check_group_by_line r g es l = check_group_by_index r g es i.
  Proof.
    intros Hg Hes. unfold check_group_by_line, check_group_by_index. cbn zeta. destruct (own_cmp g Hg) as [-> C2]. rewrite (leb_of _ _ C2).
    destruct (Nat.ltb_spec l (n_line (nd g))); [reflexivity|].
    destruct (Nat.eqb_spec l (n_line (nd g))), (Nat.leb_spec l (n_line (nd g))); auto; try lia.
    destruct es as [[|x es]|]; [reflexivity| |reflexivity]. cbn [olist] in Hes. rewrite last_of_last. cbn [bind].
    destruct (own_cmp (last es x)) as [_ ->]; [apply Hes, last_in_cons|].
    destruct (Nat.ltb_spec (n_line (nd (last es x))) l); [reflexivity|]. exact (parts_agree g (x :: es) Hes).
  Qed.

  Theorem agree : forall fuel s, s < length r -> check_in_section_by_line r fuel s l = check_in_section_by_index r fuel s i.
  Proof.
    induction fuel as [|fuel IH]; intros s Hs; [reflexivity|]. cbn [check_in_section_by_line check_in_section_by_index].
    assert (forall e, In e (rev (n_elements (nd s))) -> s < e < length r) as Hch by (intros e He; apply (child_shape inp r L s e Hs); now apply in_rev).
    rewrite (find_same (fun e => negb (l <? n_line (nd e))) (fun e => negb (i <? lb (nd e)))).
    2:{ intros e He. apply Hch in He. destruct (own_cmp e ltac:(lia)) as [-> _]. reflexivity. }
    destruct (find _ (rev (n_elements (nd s)))) as [e|] eqn:Ef; [|reflexivity]. apply find_some in Ef as [He Hf]. apply Hch in He. cbn zeta.
    destruct (own_cmp e ltac:(lia)) as [C1 C2]. rewrite C1 in Hf. rewrite (leb_of _ _ C2). apply negb_true_iff, Nat.ltb_ge in Hf.
    destruct (Nat.eqb_spec (n_line (nd e)) l), (Nat.leb_spec l (n_line (nd e))); auto; try lia.
    destruct (parts_shape inp r L e ltac:(lia)) as [P1 P2].
    destruct (n_type (nd e)) eqn:Ety; try reflexivity.
    - now rewrite (field_agree e) by lia.
    - rewrite (group_agree e); [reflexivity|lia|]. intros c Hc. apply P2 in Hc. lia.
    - rewrite (group_agree e); [reflexivity|lia|]. intros c Hc. apply P1 in Hc. lia.
    - destruct (opt_is (n_template (nd e))); [reflexivity|]. now rewrite (multiline_agree e) by (lia || assumption).
    - apply IH. lia.
  Qed.
End Position.
