(** LookupProofs: what lookup by index finds. *)
From Verif Require Import Base Types Scan Analyzer HeapFacts AnalyzerInv SpecText AnalyzerText AnalyzerTiles SpecTree AnalyzerTree AnalyzerBlocks
  Resolver Reporter Errors Context Lookup SpecLookup LookupDoc.

(** * Lists *)

Lemma latest_ex (P : nat -> Prop) n : (forall x, {P x} + {~ P x}) -> 0 < n -> P 0 ->
  exists k, k < n /\ P k /\ forall y, k < y < n -> ~ P y.
Proof.
  intros dec. induction n as [|n IH]; intros Hn H0; [lia|]. destruct (dec n) as [Hp|Hp].
  - exists n. split; [lia|]. split; [assumption|]. intros. lia.
  - destruct n as [|n]; [contradiction|]. destruct (IH ltac:(lia) H0) as (k & K1 & K2 & K3). exists k. split; [lia|]. split; [assumption|].
    intros y Hy. destruct (Nat.eq_dec y (S n)) as [->|]; [assumption|]. apply K3. lia.
Qed.

Inductive sorted : list nat -> Prop :=
| so_nil : sorted []
| so_cons x l : sorted l -> (forall y, In y l -> x < y) -> sorted (x :: l).
Lemma ids_sorted f h : sorted (ids f h).
Proof.
  unfold ids. generalize 0 as a. induction (length h) as [|n IH]; intro a; cbn; [constructor|].
  destruct (f (hget h a)); [|apply IH]. constructor; [apply IH|]. intros y Hy. apply filter_In in Hy as [Hy _]. apply in_seq in Hy. lia.
Qed.
Lemma find_last f l : sorted l ->
  match find f (rev l) with
  | Some e => In e l /\ f e = true /\ forall y, In y l -> f y = true -> y <= e
  | None => forall y, In y l -> f y = false
  end.
Proof.
  induction 1 as [|x l Hs IH Hx]; [intros y []|]. cbn [rev].
  assert (forall l1 l2, find f (l1 ++ l2) = match find f l1 with Some e => Some e | None => find f l2 end) as Ha.
  { intros l1 l2. induction l1 as [|z l1 I]; [reflexivity|]. cbn. destruct (f z); [reflexivity|apply I]. }
  rewrite Ha. destruct (find f (rev l)) as [e|].
  - destruct IH as (I1 & I2 & I3). split; [now right|]. split; [assumption|]. intros y [<-|Hy] Hf; [|auto]. apply Hx in I1. lia.
  - cbn. destruct (f x) eqn:E.
    + split; [now left|]. split; [assumption|]. intros y [<-|Hy] Hf; [lia|]. rewrite IH in Hf by assumption. discriminate.
    + intros y [<-|Hy]; auto.
Qed.
Lemma last_of_last {A} (x : A) l : last_of (x :: l) = Ok (last l x).
Proof.
  unfold last_of. assert (exists l', rev (x :: l) = last l x :: l') as [l' ->]; [|reflexivity].
  revert x. induction l as [|y l IH]; intro x; [exists []; reflexivity|]. destruct (IH y) as [l' E]. cbn [rev] in *. rewrite E.
  rewrite last_cons. eexists. reflexivity.
Qed.
Lemma last_in_cons {A} (x : A) l : In (last l x) (x :: l).
Proof. revert x. induction l as [|y l IH]; intro x; [now left|]. rewrite last_cons. right. apply IH. Qed.
Lemma sorted_last x l : sorted (x :: l) -> forall y, In y (x :: l) -> y <= last l x.
Proof.
  revert x. induction l as [|z l IH]; intros x Hs y Hy; [destruct Hy as [<-|[]]; cbn; lia|]. inversion_clear Hs as [|? ? Hs' Hx].
  rewrite last_cons. destruct Hy as [<-|Hy]; [|now apply IH]. assert (x < z) by (apply Hx; now left). specialize (IH z Hs' z (or_introl eq_refl)). lia.
Qed.

(** * Ascending lines *)

Lemma ascending_in lo l hi : ascending lo l hi -> forall s, In s l -> lo <= fst s /\ fst s <= snd s /\ S (snd s) <= hi.
Proof.
  revert lo. induction l as [|[b e] l IH]; intros lo H s []; cbn in H; destruct H as (H1 & H2 & H3).
  - subst. cbn. apply ascending_le in H3. lia.
  - destruct (IH _ H3 s) as (G1 & G2 & G3); [assumption|]. lia.
Qed.
Lemma nested_line inp rs : nested inp rs -> rget rs R_line = Some (line_range rs) /\
  forall nm s, In (nm, s) rs -> fst (line_range rs) <= fst s /\ fst s <= snd s /\ snd s <= snd (line_range rs).
Proof. intros (b & e & E & _ & _ & _ & _ & H & _). unfold line_range. rewrite E. split; [reflexivity|exact H]. Qed.

Section Doc.
  Context (inp : text) (r : heap) (L : LDoc inp r).
  Local Notation nd := (hget r).

  Lemma own_bounds x : 0 < x < length r -> begins (nd x) <= le_ (nd x) /\ le_ (nd x) <= finish (nd x).
  Proof. intro Hx. destruct (ld_node _ _ L x Hx) as (a & b & H). apply ascending_last in H. unfold begins, le_, finish. lia. Qed.
  Lemma begins_mono x y : 0 < x -> x < y < length r -> begins (nd x) < begins (nd y).
  Proof. intros Hx Hy. pose proof (ld_order _ _ L x y Hx Hy). pose proof (own_bounds x ltac:(lia)). lia. Qed.

  (** * The lines of one instruction *)

  (** the instruction found for [x] *)
  Definition instr_at (x i : nat) (o : option ins) : Prop :=
    match o with
    | Some ins => line_at (nd x) i (i_ranges ins)
    | None => forall rs, ~ line_at (nd x) i rs
    end.
  Definition matched (x i : nat) (m : lmatch) : Prop := lm_element m = x /\ instr_at x i (lm_instr m).

  Lemma matched_here x i : 0 < x < length r -> begins (nd x) <= i -> i <= le_ (nd x) -> matched x i (here r x).
  Proof.
    intros Hx H1 H2. split; [reflexivity|]. cbn. split; [now left|]. destruct (ld_nested _ _ L x Hx) as [N _].
    destruct (nested_line _ _ N) as [E _]. eexists. split; [exact E|]. split; assumption.
  Qed.
  Lemma matched_there x i l : 0 < x < length r -> In l (rest (nd x)) -> llb l <= i -> i <= lle l -> matched x i (there x l).
  Proof.
    intros Hx Hin H1 H2. split; [reflexivity|]. cbn. split; [right; exists l; auto|]. destruct (ld_nested _ _ L x Hx) as [_ N].
    rewrite Forall_forall in N. destruct (nested_line _ _ (N l Hin)) as [E _]. eexists. split; [exact E|]. split; assumption.
  Qed.
  Lemma matched_gap x i : 0 < x < length r -> le_ (nd x) < i -> (forall l, In l (rest (nd x)) -> ~ on (leaf_line l) i) -> matched x i (nowhere x).
  Proof.
    intros Hx H1 H2. split; [reflexivity|]. cbn. intros rs ([->|(l & Hl & ->)] & s & Es & Ho).
    - unfold le_, line_range in H1. rewrite Es in H1. unfold on in Ho. lia.
    - apply (H2 l Hl). unfold leaf_line, line_range. now rewrite Es.
  Qed.

  Lemma conts_loop x i : forall cs a b, ascending a (map leaf_line cs) b -> cs <> [] ->
    (forall c0 l0, cs = c0 :: l0 -> i <= lle (last l0 c0)) ->
    exists m, (fix go cs := match cs with
                   | [] => None
                   | c :: cs' =>
                       if Nat.ltb i (llb c) then Some (nowhere x)
                       else if Nat.leb i (lle c) then Some (there x c)
                       else go cs'
                   end) cs = Some m /\
      (m = nowhere x /\ (forall l, In l cs -> ~ on (leaf_line l) i) \/ exists l, In l cs /\ llb l <= i <= lle l /\ m = there x l).
  Proof.
    induction cs as [|c cs IH]; intros a b Ha Hne Hlast; [congruence|]. specialize (Hlast c cs eq_refl). cbn [map] in Ha.
    destruct (Nat.ltb_spec i (llb c)) as [H1|H1].
    { eexists. split; [reflexivity|]. left. split; [reflexivity|]. intros l Hl Ho. unfold llb in H1.
      assert (fst (leaf_line c) <= fst (leaf_line l)) as G.
      { destruct Hl as [<-|Hl]; [lia|]. destruct (leaf_line c) as [u v] eqn:E. cbn in Ha. destruct Ha as (A1 & A2 & A3).
        destruct (ascending_in _ _ _ A3 (leaf_line l) ltac:(now apply in_map)). cbn. lia. }
      unfold on in Ho. unfold leaf_line in *. lia. }
    destruct (Nat.leb_spec i (lle c)) as [H2|H2].
    { eexists. split; [reflexivity|]. right. exists c. split; [now left|]. split; [lia|reflexivity]. }
    destruct (leaf_line c) as [u v] eqn:E. cbn in Ha. destruct Ha as (A1 & A2 & A3).
    destruct (IH _ _ A3) as (m & M1 & M2).
    - intros ->. cbn in Hlast. lia.
    - intros c0 l0 ->. now rewrite last_cons in Hlast.
    - exists m. split; [exact M1|]. destruct M2 as [[-> M2]|(l & M2 & M3)].
      + left. split; [reflexivity|]. intros l [<-|Hl]; [|now apply M2]. unfold on. unfold lle in H2. change (line_range (l_ranges c)) with (leaf_line c) in H2. lia.
      + right. exists l. split; [now right|assumption].
  Qed.

  Lemma check_field_ok x i : 0 < x < length r -> begins (nd x) <= i -> n_lines (nd x) = None -> n_end (nd x) = None -> n_conts (nd x) <> Some [] ->
    if i <=? finish (nd x) then exists m, check_field_by_index r x i = Ok (Some m) /\ matched x i m
    else check_field_by_index r x i = Ok None.
  Proof.
    intros Hx Hb Hl He Hc. unfold check_field_by_index. cbn zeta. change (lb (nd x)) with (begins (nd x)).
    destruct (own_bounds x Hx) as [B1 B2]. destruct (ld_node _ _ L x Hx) as (a & b & Ha).
    assert (rest (nd x) = olist (n_conts (nd x))) as Er by (unfold rest; rewrite Hl, He; cbn; rewrite app_nil_r; reflexivity).
    destruct (Nat.ltb_spec i (begins (nd x))) as [|_]; [lia|].
    destruct (Nat.leb_spec i (le_ (nd x))) as [H1|H1].
    { replace (i <=? finish (nd x)) with true by (symmetry; apply Nat.leb_le; lia). eexists. split; [reflexivity|]. now apply matched_here. }
    destruct (n_conts (nd x)) as [[|c cs]|] eqn:Ec; [congruence| |].
    - cbn in Er. rewrite last_of_last. cbn [bind].
      assert (finish (nd x) = lle (last cs c)) as Ef.
      { unfold finish. rewrite Er. cbn [map]. rewrite last_cons, last_map. reflexivity. }
      rewrite Ef. destruct (Nat.ltb_spec (lle (last cs c)) i) as [H2|H2].
      { replace (i <=? lle (last cs c)) with false by (symmetry; apply Nat.leb_gt; lia). reflexivity. }
      replace (i <=? lle (last cs c)) with true by (symmetry; apply Nat.leb_le; lia).
      destruct (line_range (n_ranges (nd x))) as [u v] eqn:El. cbn [ascending] in Ha. destruct Ha as (_ & _ & Ha). rewrite Er in Ha.
      destruct (conts_loop x i (c :: cs) _ _ Ha) as (m & M1 & M2); [discriminate|intros c0 l0 [= <- <-]; exact H2|].
      exists m. split; [now rewrite M1|]. destruct M2 as [[-> M2]|(l & M2 & M3 & ->)].
      + apply matched_gap; auto. rewrite Er. exact M2.
      + apply matched_there; auto; [now rewrite Er|lia|lia].
    - cbn in Er. assert (finish (nd x) = le_ (nd x)) as Ef by (unfold finish; rewrite Er; reflexivity). rewrite Ef.
      replace (i <=? le_ (nd x)) with false by (symmetry; apply Nat.leb_gt; lia). reflexivity.
  Qed.

  Lemma tiles_find i ls : forall a b, tiles inp a (map leaf_line ls) b -> a <= i -> i < b ->
    exists l, find (fun l => Nat.leb i (lle l)) ls = Some l /\ In l ls /\ llb l <= i <= lle l.
  Proof.
    induction ls as [|c ls IH]; intros a b Ht Ha Hb; cbn [map] in Ht.
    - inversion Ht; subst. lia.
    - destruct (leaf_line c) as [a0 e] eqn:E. inversion Ht as [|a1 e1 l1 b1 E1 E2 E3 E4]; subst.
      assert (llb c = a0 /\ lle c = e) as [C1 C2] by (unfold llb, lle; change (line_range (l_ranges c)) with (leaf_line c); rewrite E; auto).
      cbn [find]. destruct (Nat.leb_spec i (lle c)) as [H|H].
      + exists c. split; [reflexivity|]. split; [now left|]. lia.
      + destruct (IH (S e) b) as (l & L1 & L2 & L3); [assumption|lia|assumption|]. exists l. split; [assumption|]. split; [now right|assumption].
  Qed.

  Lemma check_multiline_ok x i : 0 < x < length r -> begins (nd x) <= i -> n_type (nd x) = MULTILINE_FIELD_BEGIN ->
    if i <=? finish (nd x) then exists m, check_multiline_by_index r x i = Ok (Some m) /\ matched x i m
    else check_multiline_by_index r x i = Ok None.
  Proof.
    intros Hx Hb Hty. unfold check_multiline_by_index. cbn zeta. change (lb (nd x)) with (begins (nd x)).
    destruct (own_bounds x Hx) as [B1 B2]. destruct (ld_ml _ _ L x Hx Hty) as [(j & Ht) _].
    pose proof (ld_shape _ _ L x ltac:(lia)) as (_ & _ & _ & Hs). rewrite Hty in Hs. destruct Hs as (_ & _ & Hc & _ & He).
    destruct (n_end (nd x)) as [e|] eqn:Ee; [|congruence]. cbn [key_or bind].
    assert (rest (nd x) = ml_rest (nd x)) as Er by (unfold rest, ml_rest; rewrite Hc; reflexivity).
    assert (ml_rest (nd x) = olist (n_lines (nd x)) ++ [e]) as Em by (unfold ml_rest; now rewrite Ee).
    assert (finish (nd x) = lle e) as Ef.
    { unfold finish. rewrite Er, Em, map_app. cbn [map]. rewrite last_last. reflexivity. }
    rewrite Ef. destruct (Nat.ltb_spec i (begins (nd x))) as [|_]; [lia|]. cbn [orb].
    destruct (Nat.ltb_spec (lle e) i) as [H1|H1].
    { replace (i <=? lle e) with false by (symmetry; apply Nat.leb_gt; lia). reflexivity. }
    replace (i <=? lle e) with true by (symmetry; apply Nat.leb_le; lia).
    destruct (Nat.leb_spec i (le_ (nd x))) as [H2|H2]; [eexists; split; [reflexivity|]; now apply matched_here|].
    destruct (Nat.leb_spec (llb e) i) as [H3|H3].
    { eexists. split; [reflexivity|]. apply matched_there; auto. rewrite Er, Em. apply in_or_app. right. now left. }
    rewrite Em, map_app in Ht.
    assert (exists m, tiles inp (S (snd (line_range (n_ranges (nd x))))) (map leaf_line (olist (n_lines (nd x)))) m /\ m = llb e) as (m & T1 & T2).
    { clear - Ht. revert Ht. generalize (S (snd (line_range (n_ranges (nd x))))) as a. generalize (olist (n_lines (nd x))) as ls.
      induction ls as [|c ls IH]; intros a Ht; cbn [map app] in Ht.
      - destruct (leaf_line e) as [a0 e0] eqn:E. inversion Ht as [|a1 e1 l1 b1 E1 E2 E3 E4]; subst. exists a0. split; [constructor|].
        unfold llb. change (line_range (l_ranges e)) with (leaf_line e). now rewrite E.
      - cbn [map]. destruct (leaf_line c) as [a0 e0] eqn:E. inversion Ht as [|a1 e1 l1 b1 E1 E2 E3 E4]; subst. destruct (IH _ E4) as (m & M1 & M2). exists m. split; [|assumption].
        now constructor. }
    destruct (tiles_find i _ _ _ T1) as (l & L1 & L2 & L3); [unfold le_ in H2; lia|lia|].
    destruct (n_lines (nd x)) as [ls|] eqn:El; [|destruct L2]. cbn [olist] in L1, L2. cbn [key_or bind]. rewrite L1.
    eexists. split; [reflexivity|]. change (MkL x (opt_leaf (Some l))) with (there x l). apply matched_there; auto; [|lia|lia].
    rewrite Er, Em. apply in_or_app. now left.
  Qed.

  (** * Items and entries *)

  Lemma group_loop g i : forall es, sorted es -> es <> [] -> (forall c, In c es -> 0 < c < length r /\ plain_node (nd c) /\ n_conts (nd c) <> Some []) ->
    (forall x l, es = x :: l -> i <= le_ (nd (last l x))) ->
    exists m, (fix go es :=
               match es with
               | [] => Ok None
               | e :: es' =>
                   if Nat.ltb i (lb (nd e)) then Ok (Some (nowhere g))
                   else if Nat.leb i (le_ (nd e)) then Ok (Some (here r e))
                   else
                     do r <- check_field_by_index r e i;
                     match r with Some m => Ok (Some m) | None => go es' end
               end) es = Ok (Some m) /\
      ((exists c, In c es /\ begins (nd c) <= i <= finish (nd c) /\ matched c i m) \/
       m = nowhere g /\ forall c, In c es -> ~ (begins (nd c) <= i <= finish (nd c))).
  Proof.
    induction es as [|e es IH]; intros Hs Hne Hes Hlast; [congruence|]. inversion_clear Hs as [|? ? Hs' Hx].
    destruct (Hes e ltac:(now left)) as (He & (_ & _ & Hl & Hn) & Hc). specialize (Hlast e es eq_refl). change (lb (nd e)) with (begins (nd e)).
    destruct (own_bounds e He) as [B1 B2].
    destruct (Nat.ltb_spec i (begins (nd e))) as [H1|H1].
    { eexists. split; [reflexivity|]. right. split; [reflexivity|]. intros c Hin [C _]. destruct Hin as [<-|Hin]; [lia|].
      specialize (Hx c Hin). destruct (Hes c ltac:(now right)) as [Hc' _]. pose proof (begins_mono e c ltac:(lia) ltac:(lia)). lia. }
    destruct (Nat.leb_spec i (le_ (nd e))) as [H2|H2].
    { eexists. split; [reflexivity|]. left. exists e. split; [now left|]. split; [lia|]. now apply matched_here. }
    pose proof (check_field_ok e i He H1 Hl Hn Hc) as Hf. destruct (Nat.leb_spec i (finish (nd e))) as [H3|H3].
    - destruct Hf as (m & M1 & M2). rewrite M1. exists m. split; [reflexivity|]. left. exists e. split; [now left|]. split; [lia|assumption].
    - rewrite Hf. cbn [bind]. destruct (IH Hs') as (m & M1 & M2).
      + intros ->. cbn in Hlast. lia.
      + intros c Hin. apply Hes. now right.
      + intros x l ->. now rewrite last_cons in Hlast.
      + exists m. split; [exact M1|]. destruct M2 as [(c & C1 & C2)|[-> M2]].
        * left. exists c. split; [now right|assumption].
        * right. split; [reflexivity|]. intros c [<-|Hin]; [lia|now apply M2].
  Qed.

  (** the result for a list or fieldset; [es] are its items or entries *)
  Lemma check_group_ok g i es : 0 < g < length r -> le_ (nd g) < i -> sorted (olist es) -> es <> Some [] ->
    rest (nd g) = [] ->
    (forall c, In c (olist es) -> g < c < length r /\ plain_node (nd c) /\ n_conts (nd c) <> Some []) ->
    match olist es with
    | [] => check_group_by_index r g es i = Ok None
    | x :: l =>
        if i <=? le_ (nd (last l x)) then
          exists m, check_group_by_index r g es i = Ok (Some m) /\
            ((exists c, In c (olist es) /\ begins (nd c) <= i <= finish (nd c) /\ matched c i m) \/
             m = nowhere g /\ matched g i m /\ forall c, In c (olist es) -> ~ (begins (nd c) <= i <= finish (nd c)))
        else check_group_by_index r g es i = Ok None
    end.
  Proof.
    intros Hg Hi Hs Hne Hr Hes. unfold check_group_by_index. cbn zeta. change (lb (nd g)) with (begins (nd g)).
    destruct (own_bounds g Hg) as [B1 B2]. destruct (Nat.ltb_spec i (begins (nd g))) as [|_]; [lia|].
    destruct (Nat.leb_spec i (le_ (nd g))) as [|_]; [lia|].
    destruct es as [[|x l]|]; cbn [olist] in *; [congruence| |reflexivity]. rewrite last_of_last. cbn [bind].
    destruct (Nat.ltb_spec (le_ (nd (last l x))) i) as [H|H].
    { replace (i <=? le_ (nd (last l x))) with false by (symmetry; apply Nat.leb_gt; lia). reflexivity. }
    replace (i <=? le_ (nd (last l x))) with true by (symmetry; apply Nat.leb_le; lia).
    destruct (group_loop g i (x :: l) Hs) as (m & M1 & M2); [discriminate| | |].
    - intros c Hin. destruct (Hes c Hin) as (H1 & H2 & H3). split; [lia|auto].
    - intros x0 l0 [= <- <-]. assumption.
    - exists m. split; [exact M1|]. destruct M2 as [M2|[-> M2]]; [now left|]. right. split; [reflexivity|]. split; [|assumption].
      apply matched_gap; auto. rewrite Hr. intros l0 [].
  Qed.
End Doc.
