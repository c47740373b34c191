(** CanonRun: the analyzer on canonical text (lemmas for C14). *)
From Verif Require Import Base Regex Grammar Scan ScanProofs Types Analyzer TokenStep StepProofs ScanFacts HeapFacts AnalyzerLoop.
From Verif Require Import SpecText SpecTree SpecRead SpecApi SpecQuery Context SpecLoad SpecRaw SpecCanon CanonScan.

Lemma hupd_len (h : heap) e f : length (hupd h e f) = length h.
Proof. unfold hupd. revert e. induction h as [|x h IH]; intros [|e]; cbn; auto. Qed.
Lemma hget_out (h : heap) e : length h <= e -> hget h e = document_node.
Proof. intro H. unfold hget. now apply nth_overflow. Qed.
Lemma app1_len {A} (h : list A) n : length (h ++ [n]) = S (length h).
Proof. rewrite app_length. cbn. lia. Qed.

Section Run.
Context (inp : text).

(** * Iterations *)

Inductive runs : ast -> ast -> Prop :=
| ru_here st : runs st st
| ru_step st st1 st2 : a_index st < length inp -> step inp st = SOk st1 -> runs st1 st2 -> runs st st2.
Lemma runs_trans a b c : runs a b -> runs b c -> runs a c.
Proof. intro H. revert c. induction H; intros c Hc; [assumption|]. econstructor; eauto. Qed.

Lemma one_line st line r t e st1 : at_pos inp (a_index st) (line ++ nl :: r) -> scan (a_index st) (line ++ nl :: r) = Some (t, e) ->
  tstep_tok inp st t e = SOk st1 -> runs st st1.
Proof.
  intros Hp Hs Ht. pose proof (at_pos_len _ _ _ Hp) as Hl. rewrite app_length in Hl. cbn in Hl.
  econstructor; [|rewrite step_tstep|constructor]; [lia| |lia].
  unfold tstep. destruct Hp as [-> _]. now rewrite Hs.
Qed.
Lemma next_line i line r : at_pos inp i (line ++ nl :: r) -> at_pos inp (S (i + length line)) r.
Proof. intro H. apply at_pos_app in H as [H _]. now apply at_pos_cons in H as [H _]. Qed.
Lemma text_of_cons l ls r : text_of (l :: ls) ++ r = l ++ nl :: text_of ls ++ r.
Proof. unfold text_of. cbn [flat_map]. rewrite <- !app_assoc. reflexivity. Qed.
Lemma text_of_app a b r : text_of (a ++ b) ++ r = text_of a ++ text_of b ++ r.
Proof. unfold text_of. rewrite flat_map_app, <- app_assoc. reflexivity. Qed.

(** * Comments *)

Definition leaf_for (l : text) (x : leaf) : Prop :=
  l = [] /\ l_text x = None \/
  exists j u, l = repeat 32%N j ++ u /\ trimmed u /\ l_text x = Some u /\ column_of x = 2 + j.

(** only the comments and the position differ *)
Definition same_but_comments (st st' : ast) : Prop :=
  a_heap st' = a_heap st /\ a_depth st' = a_depth st /\ a_lnse st' = a_lnse st /\ a_lsec st' = a_lsec st /\
  a_cs st' = a_cs st /\ a_cn st' = a_cn st.
Lemma same_trans a b c : same_but_comments a b -> same_but_comments b c -> same_but_comments a c.
Proof. unfold same_but_comments. intros (?&?&?&?&?&?) (?&?&?&?&?&?). repeat split; congruence. Qed.

Definition more_comments (o : option (list leaf)) (l : list leaf) : option (list leaf) :=
  match l with [] => o | _ => Some (match o with Some cs => cs | None => [] end ++ l) end.

Definition comment_text_line (l : text) : text := match l with [] => U ">" | _ => U "> " ++ l end.

Lemma run_comment_line st l r : comment_line l -> at_pos inp (a_index st) (comment_text_line l ++ nl :: r) ->
  exists st' x, runs st st' /\ at_pos inp (a_index st') r /\ leaf_for l x /\ same_but_comments st st' /\
    a_comments st' = more_comments (a_comments st) [x].
Proof.
  intros Hl Hp. pose proof (next_line _ _ _ Hp) as Hn. destruct Hl as [->|(j & u & -> & Hu)].
  - cbn [comment_text_line] in *. eexists. eexists (comment_leaf inp st (a_index st + 1) (a_index st, a_index st + 1) None). split; [|split; [|split; [|split]]].
    + eapply one_line; [exact Hp|apply scan_comment_empty|reflexivity].
    + exact Hn.
    + left. auto.
    + repeat split.
    + cbn. now destruct (a_comments st).
  - assert (comment_text_line (repeat 32%N j ++ u) = U "> " ++ repeat 32%N j ++ u) as E.
    { destruct (trimmed_cons _ Hu) as (c & w & -> & _). destruct j; reflexivity. }
    rewrite E in *. pose proof (scan_comment (a_index st) j u r Hu) as Hs. cbv zeta in Hs.
    set (line := U "> " ++ repeat 32%N j ++ u) in *. set (v := (a_index st + 1 + S j, a_index st + 1 + S j + length u)) in *.
    eexists. eexists (comment_leaf inp st (a_index st + length line) (a_index st, a_index st + 1) (Some v)). split; [|split; [|split; [|split]]].
    + eapply one_line; [exact Hp|exact Hs|reflexivity].
    + exact Hn.
    + right. exists j, u. split; [reflexivity|]. split; [assumption|]. split; [|cbn; lia].
      cbn. f_equal. unfold v. pose proof (at_pos_sub inp (a_index st) (U "> " ++ repeat 32%N j) u (nl :: r)) as Hq.
      rewrite app_length, repeat_length in Hq. change (length (U "> ")) with 2 in Hq.
      replace (a_index st + 1 + S j) with (a_index st + (2 + j)) by lia. apply Hq. unfold line in Hp.
      rewrite <- !app_assoc in Hp. rewrite <- app_assoc. exact Hp.
    + repeat split.
    + cbn. now destruct (a_comments st).
Qed.

Lemma more_more o a b : more_comments (more_comments o a) b = more_comments o (a ++ b).
Proof. destruct a, b; cbn; try rewrite app_nil_r; auto. now rewrite <- app_assoc. Qed.

Lemma run_comment_lines ls st r : Forall comment_line ls -> at_pos inp (a_index st) (text_of (map comment_text_line ls) ++ r) ->
  exists st' xs, runs st st' /\ at_pos inp (a_index st') r /\ Forall2 leaf_for ls xs /\ same_but_comments st st' /\
    a_comments st' = more_comments (a_comments st) xs.
Proof.
  intro Hls. revert st. induction Hls as [|l ls Hl Hls IH]; intros st Hp.
  - exists st, []. split; [constructor|split; [assumption|split; [constructor|split; [repeat split|reflexivity]]]].
  - cbn [map] in Hp. rewrite text_of_cons in Hp. destruct (run_comment_line st l _ Hl Hp) as (st1 & x & R1 & P1 & L1 & S1 & C1).
    destruct (IH st1 P1) as (st2 & xs & R2 & P2 & L2 & S2 & C2). exists st2, (x :: xs). split; [|split; [|split; [|split]]].
    + eapply runs_trans; eassumption.
    + assumption.
    + now constructor.
    + eapply same_trans; eassumption.
    + rewrite C2, C1, more_more. reflexivity.
Qed.

(** elements with these comments have comment [c] *)
Definition notes (cs : option (list leaf)) (c : option (option text)) : Prop :=
  forall h e, n_comments (hget h e) = cs -> raw_comment h e c.

Lemma lines_of_join t : lines_joined (lines_of t) = t /\ lines_of t <> [].
Proof.
  induction t as [|c t [IH Hn]]; [split; [reflexivity|discriminate]|]. cbn [lines_of].
  destruct (lines_of t) as [|l ls] eqn:E; [congruence|]. destruct (N.eqb_spec c nl) as [->|].
  - split; [|discriminate]. change (lines_joined ([] :: l :: ls)) with (nl :: lines_joined (l :: ls)). now rewrite IH.
  - split; [|discriminate]. destruct ls as [|l' ls]; [cbn in *; now rewrite IH|].
    change (lines_joined ((c :: l) :: l' :: ls)) with (c :: l ++ nl :: lines_joined (l' :: ls)).
    change (lines_joined (l :: l' :: ls)) with (l ++ nl :: lines_joined (l' :: ls)) in IH. now rewrite IH.
Qed.

Lemma trimmed_not_spaced u v j : trimmed u -> u = repeat 32%N j ++ v -> j = 0.
Proof. intros H E. destruct j; [reflexivity|]. destruct (trimmed_cons _ H) as (c & w & E' & Hc & _). rewrite E' in E. injection E as -> _. discriminate. Qed.

Lemma leaf_has l x : leaf_for l x -> (has_text x <-> l <> []).
Proof.
  unfold has_text. intros [[-> ->]|(j & u & -> & Hu & -> & _)]; split; try congruence.
  intros _. destruct (trimmed_cons _ Hu) as (c & w & -> & _). destruct j; discriminate.
Qed.
Lemma leaf_dedented l x : leaf_for l x -> dedented 2 x = l.
Proof.
  unfold dedented. intros [[-> ->]|(j & u & -> & Hu & -> & ->)]; [reflexivity|].
  replace (2 + j - 2) with j by lia. reflexivity.
Qed.
Lemma leaves_dedented ls xs : Forall2 leaf_for ls xs -> map (dedented 2) xs = ls.
Proof. induction 1 as [|l x ls xs H HF IH]; [reflexivity|]. cbn. now rewrite (leaf_dedented _ _ H), IH. Qed.

Lemma Forall2_last {A B} (R : A -> B -> Prop) l m a : Forall2 R l m -> l <> [] -> exists x, hd_error (rev m) = Some x /\ R (last l a) x.
Proof.
  intros H Hl. destruct (exists_last Hl) as (l' & y & ->). apply Forall2_app_inv_l in H as (m1 & m2 & H1 & H2 & ->).
  inversion H2 as [|? x ? ? Hx Hn]; subst. inversion Hn; subst. exists x. rewrite rev_app_distr, last_app_cons. auto.
Qed.

Lemma run_comment c st r : comment_fine c -> a_comments st = None -> at_pos inp (a_index st) (text_of (comment_lines c) ++ r) ->
  exists st', runs st st' /\ at_pos inp (a_index st') r /\ same_but_comments st st' /\ notes (a_comments st') c.
Proof.
  intros Hc Hn Hp. destruct c as [[t|]|].
  - destruct Hc as (Hls & Hhd & Hlast & Hex). cbn [comment_lines] in Hp. fold comment_text_line in Hp.
    destruct (run_comment_lines (lines_of t) st r Hls Hp) as (st' & xs & R & P & L & S & C).
    exists st'. split; [exact R|split; [exact P|split; [exact S|]]]. intros h e He. rewrite C, Hn in He.
    destruct (lines_of_join t) as [Hj Hne]. destruct L as [|l x ls xs Hx HF] eqn:EL; [congruence|]. clear EL.
    cbn [more_comments app] in He. unfold raw_comment. rewrite He. cbn [hd] in Hhd.
    assert (Forall2 leaf_for (l :: ls) (x :: xs)) as HL by now constructor.
    split.
    + unfold hollow_comment. rewrite He. destruct xs; [|reflexivity]. apply (leaf_has _ _ Hx) in Hhd. unfold has_text in Hhd.
      destruct (l_text x); [reflexivity|congruence].
    + exists (Some t). split; [|reflexivity]. rewrite <- Hj, <- (leaves_dedented _ _ HL). apply bt_text.
      * exists [], []. rewrite app_nil_r. repeat split; try constructor; [discriminate| |].
        -- intros y [= <-]. now apply (leaf_has _ _ Hx).
        -- intros y Hy. destruct (Forall2_last _ _ _ [] HL ltac:(discriminate)) as (z & Hz & Hlz). rewrite Hz in Hy. injection Hy as <-.
           now apply (leaf_has _ _ Hlz).
      * split.
        -- intros y Hy Ht. clear - HL Hy Ht. induction HL as [|l0 x0 ls0 xs0 H0 HF IH]; [contradiction|].
           destruct Hy as [->|Hy]; [|now apply IH]. destruct H0 as [[_ H0]|(j & u & _ & _ & _ & ->)]; [congruence|lia].
        -- clear - HL Hex. induction HL as [|l0 x0 ls0 xs0 H0 HF IH]; [inversion Hex|].
           inversion Hex as [? ? Ht|? ? Ht]; subst.
           ++ exists x0. destruct H0 as [[-> _]|(j & u & E & Hu & Ht' & Hcol)]; [destruct Ht; congruence|].
              split; [now left|]. split; [unfold has_text; congruence|]. apply (trimmed_not_spaced _ _ _ Ht) in E. subst j. exact Hcol.
           ++ destruct (IH Ht) as (y & Hy & Hy'). exists y. split; [now right|exact Hy'].
  - change (comment_lines (Some None)) with (map comment_text_line [[]; []]) in Hp.
    destruct (run_comment_lines [[]; []] st r) as (st' & xs & R & P & L & S & C); auto.
    { repeat constructor. }
    exists st'. split; [exact R|split; [exact P|split; [exact S|]]]. intros h e He. rewrite C, Hn in He.
    inversion L as [|? x ? ? Hx L']; subst. inversion L' as [|? y ? ? Hy L'']; subst. inversion L''; subst.
    cbn [more_comments app] in He. unfold raw_comment, hollow_comment. rewrite He. split; [reflexivity|].
    exists None. split; [|reflexivity]. apply bt_empty. constructor; [|constructor; [|constructor]]; intro H; [apply (leaf_has _ _ Hx) in H|apply (leaf_has _ _ Hy) in H]; congruence.
  - exists st. cbn in Hp. split; [constructor|split; [exact Hp|split; [repeat split|]]]. rewrite Hn. intros h e He. unfold raw_comment. now rewrite He.
Qed.

(** * The heap *)

(** the nodes from [a] up to [b] describe [x], whatever the other nodes are *)
Definition settled (h : heap) (a b e : nat) (x : raw_t) : Prop :=
  forall h', (forall i, a <= i < b -> hget h' i = hget h i) -> raw_tree inp h' e x.

Lemma settled_wide h h' a b a' b' e x : settled h a b e x -> a' <= a -> b <= b' ->
  (forall i, a <= i < b -> hget h' i = hget h i) -> settled h' a' b' e x.
Proof. intros H Ha Hb E h'' E'. apply H. intros i Hi. rewrite E' by lia. now apply E. Qed.
Lemma settled_trees h a b ids xs : Forall2 (settled h a b) ids xs -> 
  forall h', (forall i, a <= i < b -> hget h' i = hget h i) -> raw_trees inp h' ids xs.
Proof. intros H h' E. induction H; constructor; auto. Qed.
Lemma settled_all_wide h h' a b a' b' ids xs : Forall2 (settled h a b) ids xs -> a' <= a -> b <= b' ->
  (forall i, a <= i < b -> hget h' i = hget h i) -> Forall2 (settled h' a' b') ids xs.
Proof. intros H Ha Hb E. induction H; constructor; auto. eapply settled_wide; eassumption. Qed.

(** elements [xs] were added to section [p] *)
Definition grown (h h' : heap) (p : nat) (xs : list raw_t) : Prop :=
  exists ids, length h <= length h' /\ (forall i, i < length h -> i <> p -> hget h' i = hget h i) /\
    hget h' p = set_elements (n_elements (hget h p) ++ ids) (hget h p) /\
    Forall2 (settled h' (length h) (length h')) ids xs.

Lemma set_elements_id n : set_elements (n_elements n ++ []) n = n.
Proof. destruct n. cbn. now rewrite app_nil_r. Qed.
Lemma grown_nil h p : grown h h p [].
Proof. exists []. split; [lia|split; [auto|split; [now rewrite set_elements_id|constructor]]]. Qed.
Lemma grown_trans h h1 h2 p xs ys : p < length h -> grown h h1 p xs -> grown h1 h2 p ys -> grown h h2 p (xs ++ ys).
Proof.
  intros Hp (i1 & L1 & U1 & P1 & S1) (i2 & L2 & U2 & P2 & S2). exists (i1 ++ i2). repeat split; [lia| | |].
  - intros i Hi Hne. rewrite U2 by lia. now apply U1.
  - rewrite P2, P1. cbn. now rewrite app_assoc.
  - apply Forall2_app.
    + eapply settled_all_wide; [exact S1|lia|lia|]. intros i Hi. apply U2; lia.
    + eapply settled_all_wide; [exact S2|lia|lia|]. auto.
Qed.

Lemma add_element_get h n p : p < length h -> let h' := add_element (h ++ [n]) p (length h) in
  length h' = S (length h) /\ (forall i, i < length h -> i <> p -> hget h' i = hget h i) /\
  hget h' p = set_elements (n_elements (hget h p) ++ [length h]) (hget h p) /\ hget h' (length h) = n.
Proof.
  intros Hp h'. unfold h', add_element. repeat split.
  - rewrite hupd_len. apply app1_len.
  - intros i Hi Hne. unfold hupd. rewrite hget_upd_neq by auto. now apply hget_app_l.
  - unfold hupd. rewrite hget_upd_eq by (rewrite app1_len; lia). now rewrite hget_app_l.
  - unfold hupd. rewrite hget_upd_neq by lia. apply hget_app_r.
Qed.

Lemma grown_one h n p x : p < length h -> (forall h', hget h' (length h) = n -> raw_tree inp h' (length h) x) ->
  grown h (add_element (h ++ [n]) p (length h)) p [x].
Proof.
  intros Hp Hx. destruct (add_element_get h n p Hp) as (L & O & P & N). exists [length h]. repeat split; [lia|assumption|assumption|].
  constructor; [|constructor]. intros h' E. apply Hx. rewrite E by lia. exact N.
Qed.
Lemma grown_length h h' p xs : grown h h' p xs -> length h <= length h'.
Proof. now intros (? & ? & _). Qed.

(** * Elements *)

(** back in the section, nothing pending *)
Definition quiet (st st' : ast) : Prop :=
  a_comments st' = None /\ a_lsec st' = a_lsec st /\ a_depth st' = a_depth st /\ a_cs st' = a_cs st /\ a_cn st' = a_cn st.

Definition added (st : ast) (r : text) (xs : list raw_t) : Prop :=
  exists st', runs st st' /\ at_pos inp (a_index st') r /\ quiet st st' /\ grown (a_heap st) (a_heap st') (a_lsec st) xs.

Lemma plain_joined n v : n_type n <> MULTILINE_FIELD_BEGIN -> n_conts n = None -> n_value n = v -> plain_value inp n v.
Proof.
  intros Ht Hc Hv. unfold plain_value. assert (joined (parts n) v) as H.
  { unfold parts. rewrite Hc, Hv. destruct v as [v|]; cbn.
    - rewrite <- (app_nil_r v) at 2. apply (jo_some [] v false []); constructor. constructor.
    - apply jo_none. constructor; [reflexivity|constructor]. }
  destruct (n_type n); auto. congruence.
Qed.

(** the header line of an empty element or field *)
Lemma run_colon st k v r c : trimmed k -> value_fine v -> notes (a_comments st) c -> a_lsec st < length (a_heap st) ->
  at_pos inp (a_index st) ((written_key k ++ U ":" ++ behind v) ++ nl :: r) ->
  exists st' n, runs st st' /\ at_pos inp (a_index st') r /\ quiet st st' /\ a_lnse st' = Some (length (a_heap st)) /\
    a_heap st' = add_element (a_heap st ++ [n]) (a_lsec st) (length (a_heap st)) /\
    n_type n = (if opt_is v then FIELD else EMPTY_ELEMENT) /\ n_key n = Some k /\ n_value n = v /\ n_comments n = a_comments st /\
    n_conts n = None /\ n_items n = None /\ n_entries n = None /\ n_mirror n = None /\ n_extend n = None.
Proof.
  intros Hk Hv Hc Hl Hp. destruct (scan_colon inp (a_index st) k v r Hk Hv) as (ks & Hs & Hr).
  pose proof (next_line _ _ _ Hp) as Hn. set (line := written_key k ++ U ":" ++ behind v) in *.
  set (q := a_index st + length (written_key k)) in *.
  eexists. eexists (field_node inp st (a_index st + length line) ks (q, q + 1) (span_behind (q + 1) v)).
  split; [eapply one_line; [exact Hp|exact Hs|reflexivity]|]. split; [exact Hn|]. split; [repeat split|].
  assert (osub inp (span_behind (q + 1) v) = v) as Ev.
  { destruct v as [v|]; [|reflexivity]. cbn. f_equal.
    pose proof (at_pos_sub inp (a_index st) (written_key k ++ U ": ") v (nl :: r)) as Hq.
    rewrite app_length in Hq. change (length (U ": ")) with 2 in Hq. unfold q.
    replace (a_index st + length (written_key k) + 1 + 1) with (a_index st + (length (written_key k) + 2)) by lia.
    apply Hq. unfold line in Hp. cbn [behind] in Hp. rewrite <- !app_assoc in *. exact Hp. }
  split; [reflexivity|]. split; [reflexivity|]. cbn [field_node n_type n_key n_value n_comments n_conts n_items n_entries n_mirror n_extend set_comments set_key set_value set_parent new_node].
  rewrite Ev. repeat split.
  - now destruct v.
  - f_equal. apply (Hr ((U ":" ++ behind v) ++ nl :: r)). unfold line in Hp. rewrite <- !app_assoc in *. exact Hp.
Qed.

Lemma run_empty st k r c : trimmed k -> notes (a_comments st) c -> a_lsec st < length (a_heap st) ->
  at_pos inp (a_index st) ((written_key k ++ U ":") ++ nl :: r) -> added st r [RawEmpty c k].
Proof.
  intros Hk Hc Hl Hp. destruct (run_colon st k None r c Hk I Hc Hl) as (st' & n & R & P & Q & _ & E & T & K & V & C & _).
  { cbn [behind]. now rewrite app_nil_r. }
  exists st'. split; [exact R|split; [exact P|split; [exact Q|]]]. rewrite E. apply grown_one; [assumption|]. intros h' En.
  cbn in T. apply rt_empty; [now rewrite En|apply Hc; now rewrite En|now rewrite En].
Qed.

Lemma ml_range fuel index line stop : index <= stop -> stop - index < fuel ->
  exists l ls line3, ml_lines inp fuel index line stop = Some (l :: ls, line3) /\
    fst (leaf_line l) = index /\ snd (leaf_line (last ls l)) = stop.
Proof.
  revert index line. induction fuel as [|f IH]; intros index line Hle Hf; [lia|]. cbn [ml_lines].
  destruct (find_nl_to inp index stop) as [e|] eqn:E.
  - apply AnalyzerLoop.find_nl_to_some in E. destruct (IH (e + 1) (line + 1)) as (l & ls & line3 & -> & F & L); [lia|lia|].
    do 3 eexists. split; [reflexivity|]. split; [reflexivity|]. rewrite <- L. f_equal. f_equal. clear.
    destruct ls as [|y ls]; [reflexivity|]. cbn [last]. revert y. induction ls as [|z ls IH]; intro y; [reflexivity|]. apply IH.
  - do 3 eexists. split; [reflexivity|]. split; reflexivity.
Qed.

Lemma run_field st k v r c : trimmed k -> notes (a_comments st) c -> a_lsec st < length (a_heap st) ->
  at_pos inp (a_index st) (text_of (field_lines k v) ++ r) -> added st r [RawField c k v].
Proof.
  intros Hk Hc Hl Hp. destruct v as [v|]; [destruct (fits v) eqn:Ev|].
  - cbn [field_lines] in Hp. rewrite Ev in Hp. rewrite text_of_cons in Hp. cbn [text_of flat_map app] in Hp.
    pose proof (proj1 (fits_trimmed v) Ev) as Hv.
    destruct (run_colon st k (Some v) r c Hk Hv Hc Hl) as (st' & n & R & P & Q & _ & E & T & K & V & C & N & _ & _ & M & _).
    { cbn [behind]. exact Hp. }
    exists st'. split; [exact R|split; [exact P|split; [exact Q|]]]. rewrite E. apply grown_one; [assumption|]. intros h' En.
    cbn in T. apply rt_field; [left; now rewrite En|apply Hc; now rewrite En|now rewrite En|].
    apply vt_own; [now rewrite En|]. rewrite En. apply plain_joined; auto. rewrite T. discriminate.
  - cbn [field_lines] in Hp. rewrite Ev in Hp. rewrite !text_of_cons in Hp. cbn [text_of flat_map app] in Hp.
    set (m := 2 + occurrences 45 v) in *. unfold dashes in Hp. fold m in Hp.
    pose proof (scan_block (a_index st) m k (v ++ nl :: (repeat 45%N m ++ 32%N :: k) ++ nl :: r) ltac:(lia) Hk) as Hs. cbv zeta in Hs.
    set (line := repeat 45%N m ++ 32%N :: k) in *. pose proof (next_line _ _ _ Hp) as P1. pose proof (next_line _ _ _ P1) as P2.
    pose proof (next_line _ _ _ P2) as P3. set (e := a_index st + length line) in *.
    assert (sub inp (a_index st, a_index st + m) = repeat 45%N m) as So.
    { unfold line in Hp. rewrite <- app_assoc in Hp. apply at_pos_app in Hp as [_ Hp]. now rewrite repeat_length in Hp. }
    assert (sub inp (a_index st + m + 1, a_index st + m + 1 + length k) = k) as Sk.
    { pose proof (at_pos_sub inp (a_index st) (repeat 45%N m ++ [32%N]) k (nl :: v ++ nl :: line ++ nl :: r)) as Hq.
      rewrite app_length, repeat_length in Hq. cbn [length] in Hq. replace (a_index st + m + 1) with (a_index st + (m + 1)) by lia.
      apply Hq. rewrite <- app_assoc. unfold line in Hp at 1. rewrite <- app_assoc in Hp. exact Hp. }
    assert (skipn e inp = nl :: v ++ nl :: line ++ nl :: r) as Sn.
    { apply at_pos_app in Hp as [Hp _]. now destruct Hp as [Hp _]. }
    assert (at_range inp (S e, S e + length v) = v) as Sv.
    { apply at_pos_app in P1 as [_ P1]. exact P1. }
    pose proof (at_pos_len _ _ _ P1) as Len. rewrite app_length in Len.
    destruct (ml_range (S (length inp)) (S e) (S (a_line st)) (S e + length v)) as (l & ls & line3 & Hml & Hf & Hla); [lia|cbn [length] in Len; lia|].
    assert (exists st', tstep_tok inp st (TMultiline (a_index st, a_index st + m) (a_index st + m + 1, a_index st + m + 1 + length k)) e = SOk st' /\
      a_index st' = S (S (S e + length v) + length line) /\ quiet st st' /\ exists le,
      a_heap st' = hupd (add_element (a_heap st ++ [multiline_node inp st e (a_index st, a_index st + m) (a_index st + m + 1, a_index st + m + 1 + length k)]) (a_lsec st) (length (a_heap st)))
                        (length (a_heap st)) (fun x => set_end (Some le) (set_lines (Some (l :: ls)) x))) as (st' & Ht & Hi & Hq & le & Hh).
    { pose proof (find_block m k e v r Hk ltac:(unfold m; lia)) as Hb. cbv zeta in Hb. fold line in Hb.
      eexists. cbn [tstep_tok]. rewrite So, Sk, Sn, Hb.
      destruct (Nat.eqb_spec (S e + length v) e); [lia|]. rewrite Hml. split; [reflexivity|]. split; [reflexivity|].
      split; [repeat split|]. eexists. reflexivity. }
    exists st'. split; [eapply one_line; eassumption|]. split; [rewrite Hi; exact P3|]. split; [exact Hq|].
    set (n := multiline_node _ _ _ _ _) in *. destruct (add_element_get (a_heap st) n (a_lsec st) Hl) as (L & O & Pp & Nn).
    rewrite Hh. exists [length (a_heap st)]. repeat split.
    + rewrite hupd_len. lia.
    + intros i Hi' Hne. unfold hupd at 1. rewrite hget_upd_neq by lia. now apply O.
    + unfold hupd at 1. rewrite hget_upd_neq by lia. exact Pp.
    + constructor; [|constructor]. intros h' E'. specialize (E' (length (a_heap st))). rewrite hupd_len, L in E'.
      assert (hget h' (length (a_heap st)) = set_end (Some le) (set_lines (Some (l :: ls)) n)) as En.
      { rewrite E' by lia. unfold hupd. rewrite hget_upd_eq by lia. now rewrite Nn. }
      apply rt_field; [right; now rewrite En|apply Hc; now rewrite En|rewrite En; exact (f_equal Some Sk)|].
      apply vt_own; rewrite En; [reflexivity|]. unfold plain_value. cbn [n_type n_lines set_end set_lines n multiline_node set_comments set_key set_parent new_node].
      rewrite Hf, Hla, Sv. reflexivity.
  - cbn [field_lines] in Hp. rewrite !text_of_cons in Hp. cbn [text_of flat_map app] in Hp. unfold dashes in Hp. set (m := 2 + occurrences 45 []) in *.
    pose proof (scan_block (a_index st) m k ((repeat 45%N m ++ 32%N :: k) ++ nl :: r) ltac:(lia) Hk) as Hs. cbv zeta in Hs.
    set (line := repeat 45%N m ++ 32%N :: k) in *. pose proof (next_line _ _ _ Hp) as P1. pose proof (next_line _ _ _ P1) as P2.
    set (e := a_index st + length line) in *.
    assert (sub inp (a_index st, a_index st + m) = repeat 45%N m) as So.
    { unfold line in Hp. rewrite <- app_assoc in Hp. apply at_pos_app in Hp as [_ Hp]. now rewrite repeat_length in Hp. }
    assert (sub inp (a_index st + m + 1, a_index st + m + 1 + length k) = k) as Sk.
    { pose proof (at_pos_sub inp (a_index st) (repeat 45%N m ++ [32%N]) k (nl :: line ++ nl :: r)) as Hq.
      rewrite app_length, repeat_length in Hq. cbn [length] in Hq. replace (a_index st + m + 1) with (a_index st + (m + 1)) by lia.
      apply Hq. rewrite <- app_assoc. unfold line in Hp at 1. rewrite <- app_assoc in Hp. exact Hp. }
    assert (skipn e inp = nl :: line ++ nl :: r) as Sn.
    { apply at_pos_app in Hp as [Hp _]. now destruct Hp as [Hp _]. }
    assert (exists st', tstep_tok inp st (TMultiline (a_index st, a_index st + m) (a_index st + m + 1, a_index st + m + 1 + length k)) e = SOk st' /\
      a_index st' = S (S e + length line) /\ quiet st st' /\ exists le,
      a_heap st' = hupd (add_element (a_heap st ++ [multiline_node inp st e (a_index st, a_index st + m) (a_index st + m + 1, a_index st + m + 1 + length k)]) (a_lsec st) (length (a_heap st)))
                        (length (a_heap st)) (fun x => set_end (Some le) (set_lines None x))) as (st' & Ht & Hi & Hq & le & Hh).
    { pose proof (find_here m k e r ltac:(unfold m; lia) Hk) as Hb. cbv zeta in Hb. fold line in Hb.
      eexists. cbn [tstep_tok]. rewrite So, Sk, Sn, Hb.
      rewrite Nat.eqb_refl. split; [reflexivity|]. split; [reflexivity|].
      split; [repeat split|]. eexists. reflexivity. }
    exists st'. split; [eapply one_line; eassumption|]. split; [rewrite Hi; exact P2|]. split; [exact Hq|].
    set (n := multiline_node _ _ _ _ _) in *. destruct (add_element_get (a_heap st) n (a_lsec st) Hl) as (L & O & Pp & Nn).
    rewrite Hh. exists [length (a_heap st)]. repeat split.
    + rewrite hupd_len. lia.
    + intros i Hi' Hne. unfold hupd at 1. rewrite hget_upd_neq by lia. now apply O.
    + unfold hupd at 1. rewrite hget_upd_neq by lia. exact Pp.
    + constructor; [|constructor]. intros h' E'. specialize (E' (length (a_heap st))). rewrite hupd_len, L in E'.
      assert (hget h' (length (a_heap st)) = set_end (Some le) (set_lines None n)) as En.
      { rewrite E' by lia. unfold hupd. rewrite hget_upd_eq by lia. now rewrite Nn. }
      apply rt_field; [right; now rewrite En|apply Hc; now rewrite En|rewrite En; exact (f_equal Some Sk)|].
      apply vt_own; rewrite En; reflexivity.
Qed.
End Run.
