(** GroundExamples: a document with a deep copy that contains sections, in which no section shows itself. *)
From Coq Require Import Relations.
From Verif Require Import Base Types Messages Reporter Errors Context Elements SpecTree SpecResolve SpecRead SpecApi SpecQuery SpecLoad SpecLinks SpecGround SpecRaw Session SessionRun QueryExamples.

Definition sec_b (h : heap) (i : nat) : bool := itype_eqb (n_type (hget h i)) SECTION.
Definition same_b (a b : option text) : bool := match a, b with Some x, Some y => text_eqb x y | None, None => true | _, _ => false end.
Definition tpl_b (h : heap) (a b : nat) : bool := match n_template (hget h a) with Some k => same_b (Some k) (n_key (hget h b)) | None => false end.
Definition child_b (h : heap) (p i : nat) : bool := match n_parent (hget h i) with Some q => Nat.eqb q p | None => false end.
Definition member_b (P : list (nat * nat)) (a b : nat) : bool := existsb (fun p => Nat.eqb (fst p) a && Nat.eqb (snd p) b) P.
Definition all_b (h : heap) (f : nat -> bool) : bool := forallb f (seq 0 (length h)).
(** [P] holds all pairs of sections that are copied or merged; the ranks decrease *)
Definition ranked (h : heap) (P : list (nat * nat)) (f : nat -> nat) : bool :=
  all_b h (fun a => all_b h (fun b => negb (sec_b h a && sec_b h b && tpl_b h a b) || member_b P a b)) &&
  forallb (fun p => all_b h (fun i => all_b h (fun j =>
    negb (child_b h (fst p) i && child_b h (snd p) j && sec_b h i && sec_b h j && same_b (n_key (hget h i)) (n_key (hget h j))) || member_b P i j))) P &&
  forallb (fun p => Nat.ltb (f (snd p)) (f (fst p))) P &&
  all_b h (fun a => all_b h (fun b => negb (sec_b h a && sec_b h b && child_b h a b) || Nat.ltb (f b) (f a))).

Lemma same_b_refl a : same_b a a = true. Proof. destruct a; [apply text_eqb_refl|reflexivity]. Qed.
Lemma sec_b_true h i : is_section (hget h i) -> sec_b h i = true. Proof. unfold sec_b, is_section. intros ->. reflexivity. Qed.
Lemma child_b_true h p i : n_parent (hget h i) = Some p -> child_b h p i = true. Proof. unfold child_b. intros ->. apply Nat.eqb_refl. Qed.
Lemma member_b_in P a b : member_b P a b = true -> In (a, b) P.
Proof. unfold member_b. intro H. apply existsb_exists in H as ([x y] & H1 & H2). cbn in H2. apply andb_prop in H2 as [H2 H3]. apply Nat.eqb_eq in H2, H3. now subst. Qed.
Lemma all_b_at h f i : all_b h f = true -> i < length h -> f i = true.
Proof. unfold all_b. intros H Hi. rewrite forallb_forall in H. apply H, in_seq. lia. Qed.
Lemma section_lt h i : is_section (hget h i) -> i < length h.
Proof. intro H. destruct (Nat.lt_ge_cases i (length h)) as [|L]; [assumption|]. unfold hget, is_section in H. rewrite nth_overflow in H by assumption. discriminate. Qed.

Lemma ranked_grounded h P f : ranked h P f = true -> grounded h.
Proof.
  intro H. apply andb_prop in H as [H H4]. apply andb_prop in H as [H H3]. apply andb_prop in H as [H1 H2]. rewrite forallb_forall in H2, H3.
  assert (T : forall a b, template_is true h a b -> In (a, b) P).
  { intros a b (k & (A1 & A2 & A3) & (B1 & B2 & B3 & _) & _). cbn in A2, B2. pose proof (all_b_at _ _ b (all_b_at _ _ a H1 A1) B1) as K. cbv beta in K.
    rewrite (sec_b_true h a A2), (sec_b_true h b B2) in K. unfold tpl_b in K. rewrite A3, B3, same_b_refl in K. apply member_b_in. exact K. }
  assert (M : forall a b, merged h a b -> In (a, b) P).
  { induction 1 as [a b Ht _|s t a b _ IH Ha Hb Sa Sb Hk]; [now apply T|]. specialize (H2 _ IH). cbn [fst snd] in H2.
    pose proof (all_b_at _ _ b (all_b_at _ _ a H2 (section_lt h a Sa)) (section_lt h b Sb)) as K. cbv beta in K.
    rewrite (child_b_true h s a Ha), (child_b_true h t b Hb), (sec_b_true h a Sa), (sec_b_true h b Sb), Hk, same_b_refl in K. apply member_b_in. exact K. }
  assert (R : forall a b, clos_trans nat (shows h) a b -> f b < f a).
  { induction 1 as [a b [[K|K]|(Sa & Sb & K)]|a b d _ I1 _ I2]; [| | |lia].
    - apply T in K. specialize (H3 _ K). now apply Nat.ltb_lt in H3.
    - apply M in K. specialize (H3 _ K). now apply Nat.ltb_lt in H3.
    - pose proof (all_b_at _ _ b (all_b_at _ _ a H4 (section_lt h a Sa)) (section_lt h b Sb)) as L. cbv beta in L.
      rewrite (sec_b_true h a Sa), (sec_b_true h b Sb), (child_b_true h a b K) in L. now apply Nat.ltb_lt in L. }
  intros i Hi. specialize (R i i Hi). lia.
Qed.

Definition deep_doc : text := U "# s
## b
x: 1
# t << s
## b
y: 2".
Lemma deep_parsed : parse_context deep_doc en TextReporter None = Ok (ctx_of deep_doc).
Proof. vm_compute. reflexivity. Qed.
Lemma deep_ranked : ranked (c_heap (ctx_of deep_doc)) [(4, 1); (5, 2)] (fun i => nth i [0; 1; 0; 0; 2; 1; 0] 0) = true.
Proof. vm_compute. reflexivity. Qed.
Lemma deep_grounded : grounded (c_heap (ctx_of deep_doc)).
Proof. exact (ranked_grounded _ _ _ deep_ranked). Qed.
Lemma deep_deep : n_deep_copy (hget (c_heap (ctx_of deep_doc)) 4) = true /\ n_parent (hget (c_heap (ctx_of deep_doc)) 5) = Some 4 /\ is_section (hget (c_heap (ctx_of deep_doc)) 5).
Proof. repeat split; vm_compute; reflexivity. Qed.
Lemma deep_raw : snd (raw_of 0 (begin deep_doc)) = Ok (RawDocument [RawSection None (U "s") [RawSection None (U "b") [RawField None (U "x") (Some (U "1"))]];
  RawSection None (U "t") [RawSection None (U "b") [RawField None (U "x") (Some (U "1")); RawField None (U "y") (Some (U "2"))]]]).
Proof. vm_compute. reflexivity. Qed.
