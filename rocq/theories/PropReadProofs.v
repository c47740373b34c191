(** PropReadProofs: lemmas behind PropRead. *)
From Coq Require Import Relations.
From Verif Require Import Base Types Scan Messages Analyzer TokenStep HeapFacts AnalyzerInv SpecTree AnalyzerTree AnalyzerCopies
  Resolver SpecResolve ResolverIndex ResolverFields ResolverFinal Reporter Errors Context ParseOutcome SpecText SpecRead Reads ReadOps ReadLinks.

(** * C15 *)

Definition part (l : leaf) : option text * bool := (l_text l, l_spaced l).
Lemma join_some cs : forall v sp, exists w, join_conts (Some v) sp cs = Some (v ++ w) /\
  forall gap, Forall absent gap -> (Exists asks gap <-> sp = true) -> joined_rest (gap ++ map part cs) w.
Proof.
  induction cs as [|c cs IH]; intros v sp; cbn [join_conts].
  - exists []. split; [now rewrite app_nil_r|]. intros gap Hg _. cbn [map]. rewrite app_nil_r. now apply jr_end.
  - destruct (l_text c) as [x|] eqn:Ex.
    + cbn [map]. assert (part c = (Some x, l_spaced c)) as -> by (unfold part; now rewrite Ex).
      destruct (l_spaced c || sp) eqn:Es.
      * destruct (IH (v ++ 32%N :: x) false) as (w & E & H). exists (32%N :: x ++ w).
        split; [rewrite E; now rewrite <- app_assoc|]. intros gap Hg Ha. apply jr_space; [assumption| |].
        -- apply orb_true_iff in Es as [Es|Es]; [now left|right; now apply Ha].
        -- apply (H []); [constructor|]. split; [intro G; inversion G|discriminate].
      * apply orb_false_iff in Es as [Es2 Es1]. rewrite Es2. subst sp. destruct (IH (v ++ x) false) as (w & E & H). exists (x ++ w).
        split; [rewrite E; now rewrite <- app_assoc|]. intros gap Hg Ha. apply jr_direct; [assumption|rewrite Ha; congruence|].
        apply (H []); [constructor|]. split; [intro G; inversion G|discriminate].
    + destruct (IH v (sp || l_spaced c)) as (w & E & H). exists w. split; [assumption|]. intros gap Hg Ha. cbn [map].
      change (gap ++ part c :: map part cs) with (gap ++ [part c] ++ map part cs). rewrite app_assoc. apply H.
      * apply Forall_app. split; [assumption|]. constructor; [exact Ex|constructor].
      * rewrite Exists_app, Ha, orb_true_iff, Exists_cons, Exists_nil. unfold asks, part. cbn [snd]. tauto.
Qed.
Lemma join_none cs : exists gap rest, map part cs = gap ++ rest /\ Forall absent gap /\
  match rest with
  | [] => join_conts None false cs = None
  | (Some t, sp) :: rest' => exists w, join_conts None false cs = Some (t ++ w) /\ joined_rest rest' w
  | _ => False
  end.
Proof.
  induction cs as [|c cs IH]; cbn [join_conts map].
  - exists [], []. auto.
  - destruct (l_text c) as [x|] eqn:Ex.
    + exists [], (part c :: map part cs). assert (part c = (Some x, l_spaced c)) as -> by (unfold part; now rewrite Ex). split; [reflexivity|]. split; [constructor|].
      destruct (join_some cs x false) as (w & E & H). exists w. split; [assumption|].
      apply (H []); [constructor|]. split; [intro G; inversion G|discriminate].
    + destruct IH as (gap & rest & E & Hg & Hr). exists (part c :: gap), rest. rewrite E. split; [reflexivity|].
      split; [now constructor|assumption].
Qed.
Lemma own_plain inp n : plain_value inp n (own_value inp n).
Proof.
  unfold plain_value, own_value.
  assert (J : joined (parts n) (match n_conts n with Some cs => join_conts (n_value n) false cs | None => n_value n end)).
  { unfold parts. fold part. destruct (n_value n) as [v|] eqn:Ev.
    - assert (exists w, match n_conts n with Some cs => join_conts (Some v) false cs | None => Some v end = Some (v ++ w) /\
        joined_rest (map part (match n_conts n with Some l => l | None => [] end)) w) as (w & -> & Hw).
      { destruct (n_conts n) as [cs|].
        - destruct (join_some cs v false) as (w & E & H). exists w. split; [assumption|].
          apply (H []); [constructor|]. split; [intro G; inversion G|discriminate].
        - exists []. split; [now rewrite app_nil_r|]. apply jr_end. constructor. }
      apply (jo_some [] v false _ w); [constructor|assumption].
    - destruct (n_conts n) as [cs|]; [|apply jo_none; repeat constructor].
      destruct (join_none cs) as (gap & rest & E & Hg & Hr). change (joined ((None, false) :: map part cs) (join_conts None false cs)). rewrite E.
      destruct rest as [|[[t|] sp] rest]; [|destruct Hr as (w & -> & Hw)|contradiction].
      + rewrite Hr. apply jo_none. constructor; [reflexivity|]. now rewrite app_nil_r.
      + apply (jo_some ((None, false) :: gap)); [constructor; [reflexivity|assumption]|assumption]. }
  destruct (n_type n); try exact J. destruct (n_lines n) as [[|l ls]|]; reflexivity.
Qed.

(** the specification determines the value *)
Lemma gap_split {A} (P : A -> Prop) g x l g' x' l' : Forall P g -> Forall P g' -> ~ P x -> ~ P x' -> g ++ x :: l = g' ++ x' :: l' ->
  g = g' /\ x = x' /\ l = l'.
Proof.
  intros Hg. revert g'. induction Hg as [|y g Hy Hg IH]; intros g' Hg' Hx Hx' E.
  - destruct g' as [|y' g']; [injection E as -> ->; auto|]. injection E as <- _. inversion Hg'; contradiction.
  - destruct g' as [|y' g']; [injection E as -> _; contradiction|]. injection E as -> E. inversion Hg'; subst.
    destruct (IH g') as (-> & -> & ->); auto.
Qed.
Lemma gap_end {A} (P : A -> Prop) g x l g' : Forall P g' -> ~ P x -> g ++ x :: l = g' -> False.
Proof. intros H Hx <-. apply Forall_app in H as [_ H]. inversion H; contradiction. Qed.
Lemma some_present t sp : ~ absent (Some t, sp). Proof. discriminate. Qed.
Lemma joined_rest_fun ps v w : joined_rest ps v -> joined_rest ps w -> v = w.
Proof.
  intro H. revert w. induction H as [gap Hg|gap t sp rest r Hg Hs Hr IH|gap t rest r Hg Hs Hr IH]; intros w G;
    inversion G as [gap' Hg' E|gap' t' sp' rest' r' Hg' Hs' Hr' E|gap' t' rest' r' Hg' Hs' Hr' E]; subst.
  - reflexivity.
  - exfalso. eapply gap_end; [exact Hg|apply (some_present t' sp')|reflexivity].
  - exfalso. eapply gap_end; [exact Hg|apply (some_present t' false)|reflexivity].
  - exfalso. eapply gap_end; [exact Hg'|apply (some_present t sp)|reflexivity].
  - apply (gap_split absent) in E; auto using some_present. destruct E as (_ & [= -> ->] & ->). f_equal. f_equal. now apply IH.
  - apply (gap_split absent) in E; auto using some_present. destruct E as (-> & [= -> <-] & ->). exfalso. destruct Hs as [|]; [discriminate|contradiction].
  - exfalso. eapply gap_end; [exact Hg'|apply (some_present t false)|reflexivity].
  - apply (gap_split absent) in E; auto using some_present. destruct E as (-> & [= <- ->] & <-). exfalso. destruct Hs' as [|]; [discriminate|contradiction].
  - apply (gap_split absent) in E; auto using some_present. destruct E as (_ & [= ->] & ->). f_equal. now apply IH.
Qed.
Lemma joined_fun ps v w : joined ps v -> joined ps w -> v = w.
Proof.
  intros [ps' Hp|gap t sp rest r Hg Hr] G; inversion G as [ps2 Hp2|gap' t' sp' rest' r' Hg' Hr' E]; subst.
  - reflexivity.
  - exfalso. eapply gap_end; [exact Hp|apply (some_present t' sp')|reflexivity].
  - exfalso. eapply gap_end; [exact Hp2|apply (some_present t sp)|reflexivity].
  - apply (gap_split absent) in E; auto using some_present. destruct E as (_ & [= -> ->] & ->). do 2 f_equal. eapply joined_rest_fun; eassumption.
Qed.
Lemma plain_value_fun inp n v w : plain_value inp n v -> plain_value inp n w -> v = w.
Proof.
  unfold plain_value. destruct (n_type n); try apply joined_fun. destruct (n_lines n) as [[|l ls]|]; congruence.
Qed.

(** * C18 *)

Lemma column_indent l : comment_indent l = column_of l.
Proof. unfold comment_indent, column_of, leaf_line. destruct (rget (l_ranges l) R_comment) as [[b e]|]; reflexivity. Qed.

Definition textless (l : leaf) : Prop := ~ has_text l.
Definition scanned (ls : list leaf) (s : nat * option nat * option nat * nat) : Prop :=
  let '(i, first, shared, lst) := s in
  i = length ls /\
  match first with
  | None => shared = None /\ Forall textless ls
  | Some f => exists a c b k, ls = a ++ c ++ b /\ Forall textless a /\ Forall textless b /\ length a = f /\ lst + 1 = f + length c /\
      c <> [] /\ (forall x, hd_error c = Some x -> has_text x) /\ (forall x, hd_error (rev c) = Some x -> has_text x) /\
      shared = Some k /\ shared_indent ls k
  end.
Lemma scanned_ok ls : scanned ls (scan_comments ls).
Proof.
  induction ls as [|x ls IH] using rev_ind; [cbn; auto|]. unfold scan_comments in *. rewrite fold_left_app. cbn [fold_left].
  destruct (fold_left _ ls _) as [[[i first] shared] lst]. cbn in IH. destruct IH as [-> IH].
  destruct (l_text x) as [t|] eqn:Et; cbn.
  - assert (Hx : has_text x) by (unfold has_text; congruence).
    split; [rewrite app_length; cbn; lia|]. rewrite column_indent. destruct first as [f|].
    + destruct IH as (a & c & b & k & -> & Ha & Hb & La & Lc & Hc & Hh & Hl & -> & [S1 S2]).
      set (k' := if Nat.ltb (column_of x) k then column_of x else k).
      exists a, (c ++ b ++ [x]), [], k'. split; [now rewrite app_nil_r, <- !app_assoc|]. split; [assumption|]. split; [constructor|]. split; [assumption|].
      split; [rewrite !app_length; cbn; lia|]. split; [destruct c; [contradiction|discriminate]|]. split; [|split; [|split]].
      * intros y Hy. apply Hh. destruct c; [contradiction|exact Hy].
      * intros y Hy. rewrite app_assoc, rev_app_distr in Hy. cbn in Hy. congruence.
      * unfold k', Nat.ltb. destruct k; [reflexivity|]. destruct (Nat.leb _ _); reflexivity.
      * unfold k'. destruct (Nat.ltb_spec (column_of x) k) as [L|L]; split.
        -- intros l Hi Hl'. apply in_app_or in Hi as [Hi|[<-|[]]]; [specialize (S1 l Hi Hl'); lia|lia].
        -- exists x. split; [apply in_or_app; right; now left|auto].
        -- intros l Hi Hl'. apply in_app_or in Hi as [Hi|[<-|[]]]; [now apply S1|assumption].
        -- destruct S2 as (l & L1 & L2 & L3). exists l. split; [apply in_or_app; now left|auto].
    + destruct IH as [-> Ha]. exists ls, [x], [], (column_of x). rewrite app_nil_r. split; [reflexivity|]. split; [assumption|]. split; [constructor|].
      split; [reflexivity|]. split; [cbn; lia|]. split; [discriminate|]. split; [cbn; intros y Hy; congruence|]. split; [cbn; intros y Hy; congruence|].
      split; [reflexivity|]. split.
      * intros l Hi Hl'. apply in_app_or in Hi as [Hi|[<-|[]]]; [|lia]. rewrite Forall_forall in Ha. now destruct (Ha l Hi).
      * exists x. split; [apply in_or_app; right; now left|auto].
  - assert (Hx : textless x) by (unfold textless, has_text; congruence).
    split; [rewrite app_length; cbn; lia|]. destruct first as [f|].
    + destruct IH as (a & c & b & k & -> & Ha & Hb & La & Lc & Hc & Hh & Hl & -> & [S1 S2]).
      exists a, c, (b ++ [x]), k. split; [now rewrite <- !app_assoc|]. split; [assumption|]. split; [apply Forall_app; auto|].
      split; [assumption|]. split; [assumption|]. split; [assumption|]. split; [assumption|]. split; [assumption|]. split; [reflexivity|]. split.
      * intros l Hi Hl'. apply in_app_or in Hi as [Hi|[<-|[]]]; [now apply S1|contradiction].
      * destruct S2 as (l & L1 & L2 & L3). exists l. split; [apply in_or_app; now left|auto].
    + destruct IH as [-> Ha]. split; [reflexivity|]. apply Forall_app. auto.
Qed.
Lemma lines_join ls : join [nl] ls = lines_joined ls.
Proof. induction ls as [|x [|y ls] IH]; cbn in *; try reflexivity. now rewrite IH. Qed.
Lemma multi_block ls : block_text ls (multi_comment ls).
Proof.
  unfold multi_comment. pose proof (scanned_ok ls) as H. destruct (scan_comments ls) as [[[i [f|]] shared] lst]; cbn in H; destruct H as [-> H].
  - destruct H as (a & c & b & k & -> & Ha & Hb & La & Lc & Hc & Hh & Hl & -> & HS).
    assert (firstn (lst + 1 - f) (skipn f (a ++ c ++ b)) = c) as ->.
    { subst f. rewrite skipn_app, skipn_all, Nat.sub_diag. cbn [app skipn]. replace (lst + 1 - length a) with (length c) by lia.
      now rewrite firstn_app, firstn_all, Nat.sub_diag, firstn_O, app_nil_r. }
    rewrite lines_join. replace (map _ c) with (map (dedented k) c).
    + apply bt_text; [|assumption]. exists a, b. split; [reflexivity|]. split; [exact Ha|]. split; [exact Hb|]. auto.
    + apply map_ext. intro l. unfold dedented. destruct (l_text l); [|reflexivity]. rewrite column_indent.
      destruct (Nat.eqb_spec (column_of l) k) as [E|]; [rewrite E, Nat.sub_diag|]; reflexivity.
  - destruct H as [_ H]. now apply bt_empty.
Qed.
Lemma single_block x t : l_text x = Some t -> block_text [x] (Some t).
Proof.
  intro E. replace t with (lines_joined (map (dedented (column_of x)) [x])).
  - assert (has_text x) by (unfold has_text; congruence). apply bt_text.
    + exists [], []. split; [reflexivity|]. split; [constructor|]. split; [constructor|]. split; [discriminate|]. split; cbn; now intros y [= <-].
    + split; [intros l [<-|[]] _; lia|]. exists x. split; [now left|auto].
  - cbn. unfold dedented. rewrite E, Nat.sub_diag. reflexivity.
Qed.

(** the specification determines the text *)
Lemma textless_not x : has_text x -> ~ textless x. Proof. intros H G. now apply G. Qed.
Lemma core_fun ls c c' : core_of has_text ls c -> core_of has_text ls c' -> c = c'.
Proof.
  intros (a & b & E & Ha & Hb & Hc & Hh & Hl) (a' & b' & E' & Ha' & Hb' & Hc' & Hh' & Hl').
  destruct c as [|x c]; [contradiction|]. destruct c' as [|x' c']; [contradiction|].
  assert (has_text x) as X by (now apply Hh). assert (has_text x') as X' by (now apply Hh').
  rewrite E in E'. cbn [app] in E'. apply (gap_split (fun l => ~ has_text l)) in E'; auto. destruct E' as (_ & -> & E').
  f_equal. assert (R : rev b ++ rev (x' :: c) = rev b' ++ rev (x' :: c')).
  { rewrite <- !rev_app_distr. cbn [app]. now rewrite E'. }
  assert (forall m, exists z l, rev (x' :: m) = z :: l) as NE.
  { intro m. destruct (rev (x' :: m)) eqn:Er; [apply (f_equal (@length _)) in Er; rewrite rev_length in Er; discriminate|eauto]. }
  destruct (NE c) as (z & l & Ez), (NE c') as (z' & l' & Ez'). rewrite Ez, Ez' in R.
  apply (gap_split (fun l => ~ has_text l)) in R; auto using Forall_rev.
  - destruct R as (_ & -> & ->). rewrite <- Ez' in Ez. apply (f_equal (@rev _)) in Ez. rewrite !rev_involutive in Ez. congruence.
  - intro N. apply N. apply Hl. now rewrite Ez.
  - intro N. apply N. apply Hl'. now rewrite Ez'.
Qed.
Lemma shared_fun ls k k' : shared_indent ls k -> shared_indent ls k' -> k = k'.
Proof. intros [A (l & L1 & L2 & L3)] [A' (l' & L1' & L2' & L3')]. specialize (A l' L1' L2'). specialize (A' l L1 L2). lia. Qed.
Lemma block_text_fun ls v w : block_text ls v -> block_text ls w -> v = w.
Proof.
  intros [ls1 H1|ls1 c k H1 H2] G; inversion G as [? G1|? c' k' G1 G2]; subst.
  - reflexivity.
  - exfalso. destruct G2 as [_ (l & L1 & L2 & _)]. rewrite Forall_forall in H1. now apply (H1 l).
  - exfalso. destruct H2 as [_ (l & L1 & L2 & _)]. rewrite Forall_forall in G1. now apply (G1 l).
  - now rewrite (core_fun _ _ _ H1 G1), (shared_fun _ _ _ H2 G2).
Qed.

(** * Parsed documents *)

Section Parsed.
  Context {inp : text} {loc : locale} {rk : reporter_kind} {src : option text} {c : ctx} (HP : parse_context inp loc rk src = Ok c).

  Lemma parsed : exists h0 cs cn, Analysed h0 cs cn /\ Resolved h0 (c_heap c).
  Proof.
    apply parse_ok in HP as (st & lc & h & Ha & Hr & ->). pose proof (analysed _ _ _ Ha) as HA. pose proof (resolve_spec _ _ _ HA) as Hs.
    rewrite Hr in Hs. eauto.
  Qed.

  Let r := c_heap c.

  Lemma read_value hist e : ~ is_section (hget r e) -> exists v, value_at inp r e v /\ answered inp (AskValue e) (after inp hist r) = Ok (AnsText v).
  Proof.
    destruct parsed as (h0 & cs & cn & HA & HR). intro Hs. destruct (can_read h0 cs cn HA r HR e) as (p & Hp & Ha).
    { rewrite <- (proj2 (proj2 (proj2 (proj2 (proj2 (proj2 (proj2 (proj2 (proj2 (res_fields h0 r HR e)))))))))). now rewrite ncls_sec. }
    destruct (value_ends inp r e p Hp) as (v & Hv). exists v. split; [assumption|].
    apply (value_answer inp r); [|assumption|eauto]. eapply after_keeps, cached0; eassumption.
  Qed.
  Lemma list_class e ty : n_type (hget r e) = ty -> ty <> SECTION -> forall h0, Resolved h0 r -> ncls (hget h0 e) <> CSec.
  Proof.
    intros E Hn h0 HR. rewrite <- (proj2 (proj2 (proj2 (proj2 (proj2 (proj2 (proj2 (proj2 (proj2 (res_fields h0 r HR e)))))))))).
    rewrite ncls_sec. unfold is_section. congruence.
  Qed.
  Lemma read_items hist e : n_type (hget r e) = LIST -> exists l, items_at r e l /\ answered inp (AskItems e) (after inp hist r) = Ok (AnsList l).
  Proof.
    destruct parsed as (h0 & cs & cn & HA & HR). intro E. destruct (can_read h0 cs cn HA r HR e) as (p & Hp & Ha).
    { now apply (list_class e LIST). }
    rewrite E in Ha. destruct (items_ends r e p Hp Ha) as (l & Hl). exists l. split; [assumption|].
    apply (items_answer inp r _ e l p); try assumption. eapply after_keeps, cached0; eassumption.
  Qed.
  Lemma read_entries hist e : n_type (hget r e) = FIELDSET -> exists l, entries_at r e l /\ answered inp (AskEntries e) (after inp hist r) = Ok (AnsList l).
  Proof.
    destruct parsed as (h0 & cs & cn & HA & HR). intro E. destruct (can_read h0 cs cn HA r HR e) as (p & Hp & Ha).
    { now apply (list_class e FIELDSET). }
    rewrite E in Ha. destruct (entries_ends r e p Hp Ha) as (l & Hl). exists l. split; [assumption|].
    apply (entries_answer inp r); [|assumption]. eapply after_keeps, cached0; eassumption.
  Qed.

  (** questions with an answer that can not fail *)
  Definition proper (a : ask) : Prop :=
    match a with
    | AskValue e => ~ is_section (hget r e)
    | AskItems e => n_type (hget r e) = LIST
    | AskEntries e => n_type (hget r e) = FIELDSET
    | AskComment _ => True
    | _ => False
    end.
  Lemma same_answer hist a : proper a -> answered inp a (after inp hist r) = answered inp a r.
  Proof.
    destruct a as [e|e|e|e|e|e]; cbn [proper]; intro Ha; try contradiction.
    - destruct (read_value hist e Ha) as (v & Hv & ->). destruct (read_value [] e Ha) as (w & Hw & E). cbn [after] in E. rewrite E.
      do 2 f_equal. eapply value_at_fun; eassumption.
    - destruct parsed as (h0 & cs & cn & HA & HR). pose proof (cached0 inp h0 cs cn HA r HR) as C0.
      pose proof (after_keeps inp r hist r C0) as C1.
      pose proof (comment_answer inp r _ e C0) as A0. pose proof (comment_answer inp r _ e C1) as A1.
      destruct (answered inp (AskComment e) r) as [[v| | |]|x]; try contradiction;
        destruct (answered inp (AskComment e) (after inp hist r)) as [[w| | |]|y]; try contradiction.
      + do 2 f_equal. eapply comment_at_fun; eassumption.
      + exfalso. destruct A1 as (_ & l & A1 & A2). unfold comment_at in A0. rewrite A1 in A0. tauto.
      + exfalso. destruct A0 as (_ & l & A0 & A2). unfold comment_at in A1. rewrite A0 in A1. tauto.
      + destruct A0 as [-> _], A1 as [-> _]. reflexivity.
    - destruct (read_items hist e Ha) as (v & Hv & ->). destruct (read_items [] e Ha) as (w & Hw & E). cbn [after] in E. rewrite E.
      do 2 f_equal. eapply items_at_fun; eassumption.
    - destruct (read_entries hist e Ha) as (v & Hv & ->). destruct (read_entries [] e Ha) as (w & Hw & E). cbn [after] in E. rewrite E.
      do 2 f_equal. eapply entries_at_fun; eassumption.
  Qed.

  Lemma value_joined hist e : ~ is_section (hget r e) -> n_template (hget r e) = None ->
    exists v, answered inp (AskValue e) (after inp hist r) = Ok (AnsText v) /\ plain_value inp (hget r e) v.
  Proof.
    intros Hs Ht. destruct (read_value hist e Hs) as (v & Hv & E). exists v. split; [assumption|].
    destruct parsed as (h0 & cs & cn & HA & HR).
    assert (n_mirror (hget r e) = None) as Hm.
    { destruct (res_fields h0 r HR e) as (_ & _ & _ & _ & _ & _ & _ & E1 & _ & E2).
      assert (hget r e = hget h0 e) as ->; [|now destruct (pristine_over h0 cs cn HA e)].
      destruct (nclass_eqb (ncls (hget h0 e)) CElem) eqn:Ec.
      - apply nclass_eqb_eq in Ec. apply ncls_elem in Ec. apply (plain_links h0 r HR); [exact Ec|congruence].
      - apply (other_links h0 r HR); [rewrite <- E2; now rewrite ncls_sec|]. intro K. apply ncls_elem in K. rewrite K in Ec. discriminate. }
    inversion Hv; subst; [apply own_plain|congruence].
  Qed.

  Lemma comment_block hist e : match n_comments (hget r e) with
    | Some [x] => l_text x <> None | _ => True end ->
    exists v, answered inp (AskComment e) (after inp hist r) = Ok (AnsText v) /\
      match n_comments (hget r e) with None => v = None | Some ls => block_text ls v end.
  Proof.
    intro Hc. destruct parsed as (h0 & cs & cn & HA & HR).
    pose proof (after_keeps inp r hist r (cached0 inp h0 cs cn HA r HR)) as C1. pose proof (comment_answer inp r _ e C1) as A.
    destruct (answered inp (AskComment e) (after inp hist r)) as [[v| | |]|x]; try contradiction.
    - exists v. split; [reflexivity|]. unfold comment_at in A. destruct (n_comments (hget r e)) as [[|x [|y ls]]|]; subst; try assumption.
      + apply multi_block.
      + destruct A as [A1 ->]. destruct (l_text x) eqn:E; [|contradiction]. now apply single_block.
      + apply multi_block.
      + reflexivity.
    - exfalso. destruct A as (_ & l & A1 & A2). rewrite A1 in Hc. contradiction.
  Qed.

  (** * Copies *)

  Lemma bare_next e t : bare_copy r e t -> forall hist,
    ((n_type (hget r t) = FIELD \/ n_type (hget r t) = MULTILINE_FIELD_BEGIN) ->
       n_type (hget r e) = FIELD /\ answered inp (AskValue e) (after inp hist r) = answered inp (AskValue t) (after inp hist r)) /\
    (n_type (hget r t) = LIST ->
       n_type (hget r e) = LIST /\ answered inp (AskItems e) (after inp hist r) = answered inp (AskItems t) (after inp hist r)) /\
    (n_type (hget r t) = FIELDSET ->
       n_type (hget r e) = FIELDSET /\ answered inp (AskEntries e) (after inp hist r) = answered inp (AskEntries t) (after inp hist r)).
  Proof.
    intros (Ht & H1 & H2) hist. destruct parsed as (h0 & cs & cn & HA & HR).
    pose proof (proj1 (template_res h0 r HR false e t) Ht) as Ht0. destruct (template_elem h0 e t Ht0) as [Ke Kt].
    destruct (res_fields h0 r HR e) as (_ & _ & _ & E1 & E2 & _). pose proof (own_given h0 cs cn HA r HR e Ke) as [O1 O2].
    assert (Hty := d_type _ (an_d _ _ _ HA) e (elem_lt h0 e Ke)).
    destruct (copy_cases h0 cs cn HA r HR e t Ht0) as [m E0 Ex Em Hm Ety Ee|E0 Em Ex Ett Ety|E0 Em Ex Ett Ety].
    - assert (Hv : forall v, value_at inp r t v -> value_at inp r e v).
      { intros v Hv. eapply va_mirror; [exact Em|]. inversion Hv as [? G|? m' ? G Gv]; subst; rewrite G; assumption. }
      assert (Hi : forall v, items_at r t v -> items_at r e v).
      { intros v Hv'. eapply ia_mirror; [exact Em|]. inversion Hv' as [? G|? m' ? G Gv|? ? ? ? G]; subst; rewrite G; assumption. }
      assert (He : forall v, entries_at r t v -> entries_at r e v).
      { intros v Hv'. eapply ea_mirror; [exact Em|]. inversion Hv' as [? ? G|? m' ? G Gv|? ? ? ? G]; subst; rewrite G; assumption. }
      split; [|split].
      + intro T. assert (n_type (hget r e) = FIELD) as Te by (destruct T as [T|T]; rewrite Ee, T; reflexivity). split; [assumption|].
        destruct (read_value hist t) as (v & V1 & ->). { unfold is_section. destruct T; congruence. }
        destruct (read_value hist e) as (w & V2 & ->). { unfold is_section. congruence. }
        do 2 f_equal. eapply value_at_fun; eauto.
      + intro T. assert (n_type (hget r e) = LIST) as Te by (rewrite Ee, T; reflexivity). split; [assumption|].
        destruct (read_items hist t T) as (v & V1 & ->). destruct (read_items hist e Te) as (w & V2 & ->).
        do 2 f_equal. eapply items_at_fun; eauto.
      + intro T. assert (n_type (hget r e) = FIELDSET) as Te by (rewrite Ee, T; reflexivity). split; [assumption|].
        destruct (read_entries hist t T) as (v & V1 & ->). destruct (read_entries hist e Te) as (w & V2 & ->).
        do 2 f_equal. eapply entries_at_fun; eauto.
    - exfalso. unfold own_items, own_entries in *. unfold type_ok in Hty. destruct Hty as [_ Hty]. rewrite E0 in Hty. rewrite E1, E2 in *.
      destruct Ety as [T|T]; rewrite T in Hty.
      + destruct (n_items (hget h0 e)); cbn in Hty; tauto.
      + destruct (n_entries (hget h0 e)); cbn in Hty; tauto.
    - split; [|split]; intro T; exfalso; intuition congruence.
  Qed.
  Lemma bare_chain e t : clos_trans nat (bare_copy r) e t -> forall hist,
    ((n_type (hget r t) = FIELD \/ n_type (hget r t) = MULTILINE_FIELD_BEGIN) ->
       n_type (hget r e) = FIELD /\ answered inp (AskValue e) (after inp hist r) = answered inp (AskValue t) (after inp hist r)) /\
    (n_type (hget r t) = LIST ->
       n_type (hget r e) = LIST /\ answered inp (AskItems e) (after inp hist r) = answered inp (AskItems t) (after inp hist r)) /\
    (n_type (hget r t) = FIELDSET ->
       n_type (hget r e) = FIELDSET /\ answered inp (AskEntries e) (after inp hist r) = answered inp (AskEntries t) (after inp hist r)).
  Proof.
    induction 1 as [e t H|e m t _ IH1 _ IH2]; intro hist; [now apply bare_next|].
    destruct (IH1 hist) as (A1 & B1 & C1), (IH2 hist) as (A2 & B2 & C2). split; [|split]; intro T.
    - destruct (A2 T) as [T2 E2]. destruct (A1 (or_introl T2)) as [T1 E1]. split; congruence.
    - destruct (B2 T) as [T2 E2]. destruct (B1 T2) as [T1 E1]. split; congruence.
    - destruct (C2 T) as [T2 E2]. destruct (C1 T2) as [T1 E1]. split; congruence.
  Qed.

  Lemma list_extended hist e t : template_is false r e t -> n_type (hget r e) = LIST ->
    (n_type (hget r t) = LIST \/ n_type (hget r t) = EMPTY_ELEMENT) /\
    exists l, (n_type (hget r t) = LIST -> answered inp (AskItems t) (after inp hist r) = Ok (AnsList l)) /\
      (n_type (hget r t) = EMPTY_ELEMENT -> l = []) /\
      answered inp (AskItems e) (after inp hist r) = Ok (AnsList (l ++ own_items r e)).
  Proof.
    intros Ht T. destruct parsed as (h0 & cs & cn & HA & HR).
    pose proof (proj1 (template_res h0 r HR false e t) Ht) as Ht0. destruct (template_elem h0 e t Ht0) as [Ke Kt].
    destruct (res_fields h0 r HR e) as (_ & _ & _ & E1 & E2 & _). pose proof (own_given h0 cs cn HA r HR e Ke) as [O1 O2].
    assert (Hty := d_type _ (an_d _ _ _ HA) e (elem_lt h0 e Ke)).
    destruct (read_items hist e T) as (w & V2 & ->). unfold own_items.
    destruct (copy_cases h0 cs cn HA r HR e t Ht0) as [m E0 Ex Em Hm Ety Ee|E0 Em Ex Ett Ety|E0 Em Ex Ett Ety].
    - assert (n_type (hget r t) = LIST) as Tt. { rewrite T in Ee. destruct (n_type (hget r t)); congruence. }
      split; [now left|]. destruct (read_items hist t Tt) as (v & V1 & ->). exists v. split; [reflexivity|]. split; [congruence|].
      assert (n_items (hget r e) = None) as ->. { unfold type_ok in Hty. destruct Hty as [_ Hty]. rewrite E0 in Hty. rewrite E1. now destruct Hty as [(Hty & _) _]. }
      rewrite app_nil_r. do 2 f_equal. eapply items_at_fun; [exact V2|]. eapply ia_mirror; [exact Em|].
      inversion V1 as [? G|? m' ? G Gv|? ? ? ? G]; subst; rewrite G; assumption.
    - assert (n_type (hget r t) = LIST) as Tt by congruence. split; [now left|].
      destruct (read_items hist t Tt) as (v & V1 & ->). exists v. split; [reflexivity|]. split; [congruence|].
      destruct (n_items (hget r e)) as [own|] eqn:Eo; [|destruct O1; congruence].
      do 2 f_equal. eapply items_at_fun; [exact V2|]. eapply ia_extend; eassumption.
    - split; [now right|]. exists []. split; [congruence|]. split; [reflexivity|]. do 2 f_equal.
      eapply items_at_fun; [exact V2|]. now apply ia_own.
  Qed.

  Lemma redefined_spec own x : n_key (hget r x) <> None -> (forall y, In y own -> n_key (hget r y) <> None) ->
    has_key r own x = true <-> redefined r own x.
  Proof.
    intros Hx Ho. unfold has_key, redefined. rewrite existsb_exists. unfold key_of. split; intros (y & Hy & H); exists y; (split; [assumption|]); specialize (Ho y Hy);
      destruct (n_key (hget r x)) as [kx|]; try congruence; destruct (n_key (hget r y)) as [ky|]; try congruence.
    - apply text_eqb_eq in H. congruence.
    - apply text_eqb_eq. congruence.
  Qed.
  Lemma without_filter own l : (forall y, In y own -> n_key (hget r y) <> None) -> (forall x, In x l -> n_key (hget r x) <> None) ->
    without r own l (filter (fun x => negb (has_key r own x)) l).
  Proof.
    intros Ho. induction l as [|x l IH]; intro Hl; [constructor|]. cbn [filter].
    pose proof (redefined_spec own x (Hl x (or_introl eq_refl)) Ho) as E. destruct (has_key r own x); cbn [negb].
    - apply wo_drop; [now apply E|]. apply IH. intros; apply Hl; now right.
    - apply wo_keep; [intro G; apply E in G; discriminate|]. apply IH. intros; apply Hl; now right.
  Qed.

  (** entries have keys *)
  Lemma own_entry_keys h0 cs cn e x : Analysed h0 cs cn -> Resolved h0 r -> In x (own_entries r e) -> n_key (hget r x) <> None.
  Proof.
    intros HA HR Hx. unfold own_entries in Hx. destruct (res_fields h0 r HR e) as (_ & _ & _ & _ & E2 & _). rewrite E2 in Hx.
    destruct (Nat.lt_ge_cases e (length h0)) as [L|L].
    2:{ unfold hget in Hx. rewrite nth_overflow in Hx by assumption. destruct Hx. }
    pose proof (d_entries _ (an_d _ _ _ HA) e L) as D. change (In x (olist (n_entries (hget h0 e)))) in Hx. rewrite D in Hx.
    apply in_ids in Hx as [Hx1 Hx2]. unfold entry_of in Hx2. apply andb_true_iff in Hx2 as [_ Hx2].
    unfold is_cls in Hx2. apply nclass_eqb_eq in Hx2. destruct (res_fields h0 r HR x) as (-> & _).
    destruct (an_key _ _ _ HA x) as [K|K]; [|congruence|assumption].
    split; [|assumption]. destruct x; [|lia]. exfalso. pose proof (s_doc _ (an_s _ _ _ HA)). congruence.
  Qed.
  Lemma entries_keys h0 cs cn e l : Analysed h0 cs cn -> Resolved h0 r -> entries_at r e l -> forall x, In x l -> n_key (hget r x) <> None.
  Proof.
    intros HA HR. induction 1 as [e own H1 H2 H3|e m l H1 Hm IH|e t l own H1 H2 H3 Ht IH]; intros x Hx.
    - eapply own_entry_keys; try eassumption. unfold own_entries. rewrite H3. exact Hx.
    - auto.
    - apply in_app_or in Hx as [Hx|Hx]; [apply filter_In in Hx as [Hx _]; auto|].
      eapply own_entry_keys; try eassumption. unfold own_entries. rewrite H3. exact Hx.
  Qed.

  Lemma fieldset_extended hist e t : template_is false r e t -> n_type (hget r e) = FIELDSET ->
    (n_type (hget r t) = FIELDSET \/ n_type (hget r t) = EMPTY_ELEMENT) /\
    exists l l', (n_type (hget r t) = FIELDSET -> answered inp (AskEntries t) (after inp hist r) = Ok (AnsList l)) /\
      (n_type (hget r t) = EMPTY_ELEMENT -> l = []) /\ without r (own_entries r e) l l' /\
      answered inp (AskEntries e) (after inp hist r) = Ok (AnsList (l' ++ own_entries r e)).
  Proof.
    intros Ht T. destruct parsed as (h0 & cs & cn & HA & HR).
    pose proof (proj1 (template_res h0 r HR false e t) Ht) as Ht0. destruct (template_elem h0 e t Ht0) as [Ke Kt].
    destruct (res_fields h0 r HR e) as (_ & _ & _ & E1 & E2 & _). pose proof (own_given h0 cs cn HA r HR e Ke) as [O1 O2].
    assert (Hty := d_type _ (an_d _ _ _ HA) e (elem_lt h0 e Ke)).
    pose proof (own_entry_keys h0 cs cn e) as KO. unfold own_entries in *.
    destruct (read_entries hist e T) as (w & V2 & ->).
    destruct (copy_cases h0 cs cn HA r HR e t Ht0) as [m E0 Ex Em Hm Ety Ee|E0 Em Ex Ett Ety|E0 Em Ex Ett Ety].
    - assert (n_type (hget r t) = FIELDSET) as Tt. { rewrite T in Ee. destruct (n_type (hget r t)); congruence. }
      split; [now left|]. destruct (read_entries hist t Tt) as (v & V1 & ->).
      assert (n_entries (hget r e) = None) as En. { unfold type_ok in Hty. destruct Hty as [_ Hty]. rewrite E0 in Hty. rewrite E2. now destruct Hty as [(_ & Hty & _) _]. }
      exists v, (filter (fun x => negb (has_key r [] x)) v). rewrite En. split; [reflexivity|]. split; [congruence|].
      split; [apply without_filter; [intros ? []|]; eapply entries_keys; eassumption|]. rewrite app_nil_r.
      do 2 f_equal. eapply entries_at_fun; [exact V2|]. eapply ea_mirror; [exact Em|].
      assert (filter (fun x => negb (has_key r [] x)) v = v) as ->. { clear. induction v as [|x v IH]; [reflexivity|]. cbn in *. now rewrite IH. }
      inversion V1 as [? ? G|? m' ? G Gv|? ? ? ? G]; subst; rewrite G; assumption.
    - assert (n_type (hget r t) = FIELDSET) as Tt by congruence. split; [now left|].
      destruct (read_entries hist t Tt) as (v & V1 & ->).
      destruct (n_entries (hget r e)) as [own|] eqn:Eo; [|destruct O2; congruence].
      exists v, (filter (fun x => negb (has_key r own x)) v). split; [reflexivity|]. split; [congruence|].
      split; [apply without_filter; [intros; eapply KO; eassumption|]; eapply entries_keys; eassumption|].
      do 2 f_equal. eapply entries_at_fun; [exact V2|]. eapply ea_extend; eassumption.
    - split; [now right|]. exists [], []. split; [congruence|]. split; [reflexivity|]. split; [constructor|]. do 2 f_equal.
      destruct (n_entries (hget r e)) as [own|] eqn:Eo; [|destruct O2; congruence].
      eapply entries_at_fun; [exact V2|]. now apply ea_own.
  Qed.
End Parsed.

(** * Concrete documents *)

Definition heap_of (inp : text) : heap :=
  match parse_context inp en TextReporter None with Ok c => c_heap c | Raise _ => [] end.
Definition ask_twice (inp : text) (a : ask) : res answer * res answer :=
  (answered inp a (heap_of inp), answered inp a (after inp [a] (heap_of inp))).

Definition kind_b (sec : bool) (n : node) : bool :=
  match n_type n with
  | SECTION => sec
  | EMPTY_ELEMENT | FIELD | FIELDSET | LIST | MULTILINE_FIELD_BEGIN => negb sec
  | _ => false
  end.
Lemma kind_b_ok sec n : kind_b sec n = true <-> of_kind sec n.
Proof. unfold kind_b, of_kind, is_section, is_element. destruct sec, (n_type n); cbn; split; intro; try congruence; try tauto; discriminate. Qed.
Definition eqb_opt (x : option text) (k : text) : bool := match x with Some y => text_eqb y k | None => false end.
Lemma eqb_opt_ok x k : eqb_opt x k = true <-> x = Some k.
Proof. destruct x; cbn; [rewrite text_eqb_eq|]; split; congruence. Qed.
Definition candidate_b (sec : bool) (h : heap) (k : text) (t : nat) : bool :=
  Nat.ltb t (length h) && kind_b sec (hget h t) && eqb_opt (n_key (hget h t)) k && negb (eqb_opt (n_template (hget h t)) k).
Lemma candidate_b_ok sec h k t : candidate_b sec h k t = true <-> candidate sec h k t.
Proof.
  unfold candidate_b, candidate. rewrite !andb_true_iff, Nat.ltb_lt, kind_b_ok, eqb_opt_ok, negb_true_iff.
  pose proof (eqb_opt_ok (n_template (hget h t)) k) as E. destruct (eqb_opt (n_template (hget h t)) k); intuition congruence.
Qed.
Definition template_b (sec : bool) (h : heap) (e t : nat) : bool :=
  match n_template (hget h e) with
  | Some k => Nat.ltb e (length h) && kind_b sec (hget h e) && candidate_b sec h k t &&
              forallb (fun t' => Nat.eqb t' t || negb (candidate_b sec h k t')) (seq 0 (length h))
  | None => false
  end.
Lemma template_b_ok sec h e t : template_b sec h e t = true -> template_is sec h e t.
Proof.
  unfold template_b. destruct (n_template (hget h e)) as [k|] eqn:Ek; [|discriminate]. rewrite !andb_true_iff, Nat.ltb_lt, kind_b_ok, candidate_b_ok, forallb_forall.
  intros (((H1 & H2) & H3) & H4). exists k. split; [split; auto|]. split; [assumption|]. intros t' Ht'.
  assert (In t' (seq 0 (length h))) as Hi by (apply in_seq; destruct Ht'; lia). specialize (H4 t' Hi).
  apply orb_true_iff in H4 as [H4|H4]; [now apply Nat.eqb_eq in H4|]. apply candidate_b_ok in Ht'. rewrite Ht' in H4. discriminate.
Qed.

Definition c24_doc : text := U "fs:
a = 1
b = 2
fs2 < fs
b = 3
c = 4
l:
- x
l2 < l
l3 < l2
- z
f3 < f2
f2 < f1
f1: v".
Lemma c22_two_steps : clos_trans nat (bare_copy (heap_of c24_doc)) 12 14 /\ n_type (hget (heap_of c24_doc) 14) = FIELD /\
  answered c24_doc (AskValue 12) (heap_of c24_doc) = Ok (AnsText (Some (U "v"))).
Proof.
  split; [|split; vm_compute; reflexivity]. eapply (t_trans _ _ 12 13 14); apply t_step;
    (split; [apply template_b_ok; vm_compute; reflexivity|split; vm_compute; reflexivity]).
Qed.
Lemma c23_chain : template_is false (heap_of c24_doc) 10 9 /\ template_is false (heap_of c24_doc) 9 7 /\
  own_items (heap_of c24_doc) 10 = [11] /\ answered c24_doc (AskItems 10) (heap_of c24_doc) = Ok (AnsList [8; 11]).
Proof. repeat split; try (apply template_b_ok); vm_compute; reflexivity. Qed.
Lemma c24_override : template_is false (heap_of c24_doc) 4 1 /\ n_type (hget (heap_of c24_doc) 4) = FIELDSET /\
  answered c24_doc (AskEntries 1) (heap_of c24_doc) = Ok (AnsList [2; 3]) /\
  answered c24_doc (AskEntries 4) (heap_of c24_doc) = Ok (AnsList [2; 5; 6]).
Proof. repeat split; try (apply template_b_ok); vm_compute; reflexivity. Qed.

(** * raw() *)

Lemma raw_twice_wrong : exists inp c e x, parse_context inp en TextReporter None = Ok c /\
  answered inp (AskRaw e) (c_heap c) = Raise TypeError /\
  answered inp (AskRaw e) (after inp [AskRaw e] (c_heap c)) = Ok (AnsRaw x).
Proof.
  exists (U "# c < b
y: 2
# b < a
# a
x: 1"). eexists. exists 1. eexists. split; [vm_compute; reflexivity|]. split; vm_compute; reflexivity.
Qed.
Lemma comment_fails : exists inp c e, parse_context inp en TextReporter None = Ok c /\
  answered inp (AskComment e) (c_heap c) = Raise KeyError.
Proof. exists (U "> 
x: 1"). eexists. exists 1. split; vm_compute; reflexivity. Qed.
Lemma comment_spaces : exists inp c e t, parse_context inp en TextReporter None = Ok c /\
  answered inp (AskComment e) (c_heap c) = Ok (AnsText (Some t)) /\
  exists a b, t = a ++ nl :: b /\ forall x y, inp <> x ++ b ++ nl :: y.
Proof.
  exists (U "> a
>" ++ 9%N :: 9%N :: U "b
x: 1"). eexists. exists 1. eexists. split; [vm_compute; reflexivity|]. split; [vm_compute; reflexivity|].
  exists (U "a"), (U " b"). split; [reflexivity|]. intros x y. cbn.
  do 20 (try (destruct x as [|? x]; [discriminate|]; cbn; intro H; (discriminate H || (injection H as _ H; revert H)))).
Qed.

(** the state after [raw] of each of [l], in order, if all return *)
Fixpoint returns (inp : text) (l : list nat) (h : heap) : Prop :=
  match l with
  | [] => True
  | e :: l' => (exists x, answered inp (AskRaw e) h = Ok (AnsRaw x)) /\ returns inp l' (after inp [AskRaw e] h)
  end.
Lemma after_app inp a b h : after inp (a ++ b) h = after inp b (after inp a h).
Proof. revert h. induction a as [|x a IH]; intro h; cbn; [reflexivity|apply IH]. Qed.
Lemma raw_ask inp e h x : answered inp (AskRaw e) h = Ok (AnsRaw x) <->
  exists h', raw inp (S (length h)) e h = (h', Ok x) /\ after inp [AskRaw e] h = h'.
Proof.
  unfold answered, after, do_ask, mbind, get, ret. destruct (raw inp (S (length h)) e h) as [h' [y|ex]]; cbn; split.
  - intros [= ->]. eauto.
  - now intros (h2 & [= <- ->] & _).
  - discriminate.
  - now intros (h2 & [=] & _).
Qed.
Lemma returns_more inp l : forall h, returns inp l h -> knows_more h (after inp (map AskRaw l) h).
Proof.
  induction l as [|e l IH]; intros h H; cbn [map]; [apply more_refl|]. destruct H as [(x & Hx) H].
  apply raw_ask in Hx as (h' & E & Eh). destruct (repeat_raw inp _ e h h' x E) as [K _].
  change (after inp (AskRaw e :: map AskRaw l) h) with (after inp (map AskRaw l) (after inp [AskRaw e] h)).
  rewrite Eh in *. eapply more_trans; [exact K|]. now apply IH.
Qed.
Lemma raw_again inp e x h : answered inp (AskRaw e) h = Ok (AnsRaw x) ->
  forall others, returns inp others (after inp [AskRaw e] h) ->
  answered inp (AskRaw e) (after inp (AskRaw e :: map AskRaw others) h) = Ok (AnsRaw x).
Proof.
  intros Hx others Ho. apply raw_ask in Hx as (h' & E & Eh). destruct (repeat_raw inp _ e h h' x E) as [K R].
  change (after inp (AskRaw e :: map AskRaw others) h) with (after inp (map AskRaw others) (after inp [AskRaw e] h)).
  rewrite Eh in *. pose proof (returns_more _ _ _ Ho) as K2. specialize (R _ K2).
  unfold answered, do_ask, mbind, get, ret. destruct K as [L1 _], K2 as [L2 _]. rewrite <- L2, <- L1. rewrite R. reflexivity.
Qed.
Lemma c17_copies : exists x, answered c24_doc (AskRaw 0) (heap_of c24_doc) = Ok (AnsRaw x) /\
  returns c24_doc [1; 4; 0; 9] (after c24_doc [AskRaw 0] (heap_of c24_doc)).
Proof. eexists. split; [vm_compute; reflexivity|]. cbn [returns]. repeat split; eexists; vm_compute; reflexivity. Qed.
