(** NoticeProofs: different notices have different words. *)
From Verif Require Import Base Types Messages Analyzer Faults SpecNumber NumberProofs SpecLoad SpecNotice.

Definition zero : text := [48%N].
(** a notice with its holes filled by the digit 0, which no message contains otherwise *)
Definition rep (n : notice) : notice :=
  match n with
  | Wrong q => Wrong q
  | WrongKey q _ => WrongKey q zero
  | CommentMissing => CommentMissing
  | Unexpected => Unexpected
  | CommentProblem _ => CommentProblem zero
  | KeyProblem _ => KeyProblem zero
  | ValueProblem _ => ValueProblem zero
  | FieldEmpty _ => FieldEmpty zero
  | EntryEmpty _ => EntryEmpty zero
  | ItemEmpty _ => ItemEmpty zero
  | CopiedIntoItself _ _ => CopiedIntoItself 0 zero
  | NoPattern _ => NoPattern 0
  | KeyNotClosed _ => KeyNotClosed 0
  | NothingToContinue _ => NothingToContinue 0
  | NoFieldset _ => NoFieldset 0
  | NoList _ => NoList 0
  | TooDeep _ => TooDeep 0
  | ElementNotFound _ _ => ElementNotFound 0 zero
  | SectionNotFound _ _ => SectionNotFound 0 zero
  | Ambiguous _ => Ambiguous zero
  | FieldNotClosed _ _ => FieldNotClosed zero 0
  end.
Definition all_q : list qmsg :=
  [Q_expected_empty; Q_expected_field; Q_expected_fields; Q_expected_fieldset; Q_expected_fieldsets; Q_expected_list; Q_expected_lists;
   Q_expected_section; Q_expected_sections; Q_expected_single_element; Q_expected_single_empty; Q_expected_single_field;
   Q_expected_single_fieldset; Q_expected_single_fieldset_entry; Q_expected_single_list; Q_expected_single_section;
   Q_missing_element; Q_missing_empty; Q_missing_field; Q_missing_fieldset; Q_missing_fieldset_entry; Q_missing_list; Q_missing_section].
Definition reps : list notice :=
  map Wrong all_q ++ map (fun q => WrongKey q zero) all_q ++
  [CommentMissing; Unexpected; CommentProblem zero; KeyProblem zero; ValueProblem zero; FieldEmpty zero; EntryEmpty zero; ItemEmpty zero;
   CopiedIntoItself 0 zero; NoPattern 0; KeyNotClosed 0; NothingToContinue 0; NoFieldset 0; NoList 0; TooDeep 0; ElementNotFound 0 zero;
   SectionNotFound 0 zero; Ambiguous zero; FieldNotClosed zero 0].
Lemma all_q_all q : In q all_q.
Proof. destruct q; cbn; auto 30. Qed.
Lemma rep_in n : In (rep n) reps.
Proof.
  unfold reps. rewrite !in_app_iff, !in_map_iff.
  destruct n; cbn [rep]; try (right; right; cbn [In]; auto 30; fail).
  - left. eauto using all_q_all.
  - right. left. eauto using all_q_all.
Qed.
Definition qmsg_dec (a b : qmsg) : {a = b} + {a <> b}.
Proof. decide equality. Defined.
Definition text_dec : forall a b : text, {a = b} + {a <> b} := list_eq_dec N.eq_dec.
Definition notice_dec (a b : notice) : {a = b} + {a <> b}.
Proof. decide equality; first [apply qmsg_dec | apply text_dec | apply Nat.eq_dec]. Defined.

Fixpoint before (t : text) : text := match t with [] => [] | c :: t' => if N.eqb c 48 then [] else c :: before t' end.
Fixpoint after (t : text) : text := match t with [] => [] | c :: t' => if N.eqb c 48 then t' else after t' end.
Definition pre loc (r : notice) : text := before (told loc r).
Definition suf loc (r : notice) : text := rev (before (rev (told loc r))).
Definition inn loc (r : notice) : text := before (after (told loc r)).
(** two beginnings no text shares *)
Fixpoint clash (a b : text) : bool :=
  match a, b with x :: a', y :: b' => if N.eqb x y then clash a' b' else true | _, _ => false end.
Lemma clash_apart a : forall b x y, clash a b = true -> a ++ x <> b ++ y.
Proof.
  induction a as [|c a IH]; intros [|d b] x y H E; try discriminate. cbn in H, E. injection E as <- E. rewrite N.eqb_refl in H. exact (IH _ _ _ H E).
Qed.
Definition fixed (r : notice) : bool := match r with Wrong _ | CommentMissing | Unexpected => true | _ => false end.
(** the text of a notice without holes is its beginning and its end *)
Definition apart loc (r r' : notice) : bool :=
  clash (pre loc r) (pre loc r') || clash (rev (suf loc r)) (rev (suf loc r')) ||
  (fixed r && fixed r' && if text_dec (told loc r) (told loc r') then false else true) ||
  match r, r' with
  | ElementNotFound _ _, SectionNotFound _ _ | SectionNotFound _ _, ElementNotFound _ _ => 
     (if text_dec (pre loc r) (pre loc r') then true else false) && clash (inn loc r) (inn loc r')
  | _, _ => false end.

Definition body loc (n : notice) : text :=
  match n with
  | Wrong _ | CommentMissing | Unexpected => []
  | CommentProblem m | KeyProblem m | ValueProblem m => m
  | WrongKey _ k | FieldEmpty k | EntryEmpty k | ItemEmpty k | Ambiguous k => k ++ suf loc (rep n)
  | NoPattern l | KeyNotClosed l | NothingToContinue l | NoFieldset l | NoList l | TooDeep l => dec l ++ suf loc (rep n)
  | CopiedIntoItself l k | ElementNotFound l k | SectionNotFound l k => dec l ++ inn loc (rep n) ++ k ++ suf loc (rep n)
  | FieldNotClosed k l => k ++ inn loc (rep n) ++ dec l ++ suf loc (rep n)
  end.
Lemma told_is loc n : shipped loc -> told loc n = pre loc (rep n) ++ body loc n.
Proof.
  intros [ -> |[ -> | -> ]]; destruct n; try match goal with q : qmsg |- _ => destruct q end; vm_compute; reflexivity.
Qed.
Lemma fixed_is loc n : shipped loc -> fixed n = true -> suf loc n = told loc n /\ rep n = n.
Proof.
  intros [ -> |[ -> | -> ]] H; destruct n; try discriminate H; try match goal with q : qmsg |- _ => destruct q end; split; vm_compute; reflexivity.
Qed.
Lemma no_end loc : shipped loc -> suf loc (CommentProblem zero) = [] /\ suf loc (KeyProblem zero) = [] /\ suf loc (ValueProblem zero) = [].
Proof. intros [ -> |[ -> | -> ]]; repeat split; vm_compute; reflexivity. Qed.
Lemma told_end loc n : shipped loc -> exists m, told loc n = m ++ suf loc (rep n).
Proof.
  intro Hl. destruct (fixed n) eqn:F.
  { destruct (fixed_is loc n Hl F) as [E Er]. rewrite Er, E. now exists []. }
  destruct (no_end loc Hl) as (E1 & E2 & E3).
  rewrite (told_is loc n Hl). destruct n; try discriminate F; cbn [body rep]; rewrite ?E1, ?E2, ?E3;
    try (eexists; symmetry; apply app_nil_r); rewrite ?app_assoc; eexists; reflexivity.
Qed.

(** * Numbers end where other characters begin *)
Lemma dec_digits n : Forall digit (dec n).
Proof. apply (dec_is n). Qed.
Lemma dec_inj a b : dec a = dec b -> a = b.
Proof. intro E. destruct (dec_is a) as (_ & Ha & _), (dec_is b) as (_ & Hb & _). rewrite E in Ha. congruence. Qed.
Definition stops (t : text) : Prop := match t with [] => True | c :: _ => ~ digit c end.
Lemma digits_cut a : forall b x y, Forall digit a -> Forall digit b -> stops x -> stops y -> a ++ x = b ++ y -> a = b /\ x = y.
Proof.
  induction a as [|c a IH]; intros [|d b] x y Ha Hb Hx Hy E; cbn [app] in E.
  - auto.
  - subst x. inversion Hb; subst. destruct (Hx H1).
  - subst y. inversion Ha; subst. destruct (Hy H1).
  - inversion Ha; inversion Hb; subst. injection E as <- E. destruct (IH b x y) as [-> ->]; auto.
Qed.
Lemma dec_cut a b x y : stops x -> stops y -> dec a ++ x = dec b ++ y -> a = b /\ x = y.
Proof. intros Hx Hy E. apply digits_cut in E as [E E']; auto using dec_digits. split; [now apply dec_inj|assumption]. Qed.
Lemma stops_app a b : a <> [] -> stops a -> stops (a ++ b).
Proof. destruct a; [contradiction|auto]. Qed.

Definition starts_plain (t : text) : bool := match t with [] => false | c :: _ => negb (N.leb 48 c && N.leb c 57)%N end.
Lemma starts_plain_stops t u : starts_plain t = true -> stops (t ++ u).
Proof.
  destruct t as [|c t]; [discriminate|]. cbn. unfold digit. intros H [H1 H2]. apply N.leb_le in H1, H2. now rewrite H1, H2 in H.
Qed.

Definition holes_ok loc : bool :=
  starts_plain (inn loc (CopiedIntoItself 0 zero)) && starts_plain (inn loc (ElementNotFound 0 zero)) && starts_plain (inn loc (SectionNotFound 0 zero)) &&
  starts_plain (rev (inn loc (FieldNotClosed zero 0))) && starts_plain (suf loc (FieldNotClosed zero 0)).
Lemma holes loc : shipped loc -> holes_ok loc = true.
Proof. intros [ -> |[ -> | -> ]]; vm_compute; reflexivity. Qed.
Definition table loc : bool :=
  forallb (fun r => forallb (fun r' => if notice_dec r r' then true else apart loc r r') reps) reps.
Lemma table_ok loc : shipped loc -> table loc = true.
Proof. intros [ -> |[ -> | -> ]]; vm_compute; reflexivity. Qed.

Lemma same_rep loc n n' : shipped loc -> told loc n = told loc n' -> rep n = rep n'.
Proof.
  intros Hl E. destruct (notice_dec (rep n) (rep n')) as [H|D]; [exact H|exfalso].
  pose proof (table_ok loc Hl) as T. unfold table in T. rewrite forallb_forall in T. specialize (T _ (rep_in n)). rewrite forallb_forall in T.
  specialize (T _ (rep_in n')). cbn beta in T. destruct (notice_dec _ _) as [H|_]; [contradiction|].
  unfold apart in T. rewrite !orb_true_iff in T. destruct T as [[[T|T]|T]|T].
  - rewrite (told_is loc n Hl), (told_is loc n' Hl) in E. exact (clash_apart _ _ _ _ T E).
  - destruct (told_end loc n Hl) as [a Ea], (told_end loc n' Hl) as [b Eb]. rewrite Ea, Eb in E. apply (f_equal (@rev N)) in E.
    rewrite !rev_app_distr in E. exact (clash_apart _ _ _ _ T E).
  - rewrite !andb_true_iff in T. destruct T as [[F F'] T].
    assert (forall m, fixed (rep m) = fixed m) as K by (intros []; reflexivity). rewrite K in F, F'.
    destruct (fixed_is loc n Hl F) as [_ R], (fixed_is loc n' Hl F') as [_ R']. rewrite R, R' in T. destruct (text_dec _ _); [discriminate|contradiction].
  - pose proof (holes loc Hl) as Hh. unfold holes_ok in Hh. rewrite !andb_true_iff in Hh. destruct Hh as ((((_ & H1) & H2) & _) & _).
    rewrite (told_is loc n Hl), (told_is loc n' Hl) in E.
    destruct n, n'; cbn [rep] in T; try discriminate T; apply andb_true_iff in T as [P C]; cbn [rep body] in E;
      (destruct (text_dec _ _) as [Ep|]; [|discriminate P]; rewrite Ep in E; apply app_inv_head in E;
       apply dec_cut in E as [_ E]; [exact (clash_apart _ _ _ _ C E)|apply starts_plain_stops; assumption..]).
Qed.
Lemma cut_end {a b : text} x : a ++ x = b ++ x -> a = b.
Proof. apply app_inv_tail. Qed.
Theorem told_apart loc n n' : shipped loc -> told loc n = told loc n' -> n = n'.
Proof.
  intros Hl E. pose proof (same_rep loc n n' Hl E) as R. pose proof (holes loc Hl) as Hh. unfold holes_ok in Hh. rewrite !andb_true_iff in Hh.
  destruct Hh as ((((H0 & H1) & H2) & H3) & H4).
  rewrite (told_is loc n Hl), (told_is loc n' Hl), R in E. apply app_inv_head in E.
  destruct n, n'; try discriminate R; cbn [rep body] in E; try reflexivity; try (injection R as ->); 
    try (apply cut_end in E; now rewrite E);
    try (subst; reflexivity);
    try (apply cut_end, dec_inj in E; now rewrite E);
    try (apply dec_cut in E as [-> E]; [|apply starts_plain_stops; assumption..]; apply app_inv_head, cut_end in E; now rewrite E).
  rewrite !app_assoc in E. apply cut_end in E. apply (f_equal (@rev N)) in E. rewrite !rev_app_distr in E.
  apply digits_cut in E as [E E']; [|apply Forall_rev, dec_digits|apply Forall_rev, dec_digits|apply starts_plain_stops; assumption|apply starts_plain_stops; assumption].
  apply (f_equal (@rev N)) in E. rewrite !rev_involutive in E. apply dec_inj in E as ->. apply app_inv_head in E'.
  apply (f_equal (@rev N)) in E'. rewrite !rev_involutive in E'. now rewrite E'.
Qed.

Lemma contains_here t b : contains (t ++ b) t.
Proof. now exists [], b. Qed.
Lemma contains_all t : contains t t.
Proof. exists [], []. now rewrite app_nil_r. Qed.
Lemma contains_later a u t : contains u t -> contains (a ++ u) t.
Proof. intros (x & y & ->). exists (a ++ x), y. now rewrite app_assoc. Qed.
Lemma told_line loc n l : shipped loc -> line_told n = Some l -> contains (told loc n) (dec l).
Proof.
  intros Hl E. rewrite (told_is loc n Hl). apply contains_later. destruct n; try discriminate E; injection E as ->; cbn [body]; try apply contains_here.
  apply contains_later, contains_later, contains_here.
Qed.
Lemma told_words loc n k : shipped loc -> words_told n = Some k -> contains (told loc n) k.
Proof.
  intros Hl E. rewrite (told_is loc n Hl). apply contains_later. destruct n; try discriminate E; injection E as ->; cbn [body]; try apply contains_here;
    try apply contains_all; apply contains_later, contains_later, contains_here.
Qed.
