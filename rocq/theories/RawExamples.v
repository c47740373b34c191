(** RawExamples: concrete documents for PropRaw. *)
From Verif Require Import Base Types Messages Reporter Errors Context Elements SpecTree SpecRead SpecApi SpecQuery SpecLoad SpecRaw Session SessionRun QueryExamples PropRawProofs.

Lemma q_not_mirrored : no_mirrored_sections (c_heap (ctx_of q_doc)).
Proof.
  assert (forall h, forallb (fun n => match n_mirror n with Some _ => negb (itype_eqb (n_type n) SECTION) | None => true end) h = true -> no_mirrored_sections h) as G.
  { intros h H e m He Hm. unfold mirrors in Hm. unfold is_section in He. rewrite forallb_forall in H. destruct (Nat.lt_ge_cases e (length h)) as [Hl|Hl].
    - specialize (H (hget h e) (nth_In _ _ Hl)). rewrite Hm, He in H. discriminate.
    - unfold hget in Hm. rewrite nth_overflow in Hm by assumption. discriminate. }
  apply G. vm_compute. reflexivity.
Qed.
Definition q_raw : raw_t := Eval vm_compute in match snd (raw_of 0 (begin q_doc)) with Ok x => x | Raise _ => RawDocument [] end.
Lemma q_start : reach (ctx_of q_doc) (begin q_doc) /\ names (begin q_doc) 0 CSection 0.
Proof. split; [apply (session_reach q_doc []); vm_compute; reflexivity|]. split; [cbn; lia|]. split; reflexivity. Qed.
Lemma q_tree : raw_tree q_doc (c_heap (ctx_of q_doc)) 0 q_raw.
Proof.
  destruct q_start as [H1 H2]. apply (raw_only q_parsed (begin q_doc) 0 CSection 0 q_raw q_ends q_not_mirrored H1 H2). vm_compute. reflexivity.
Qed.
Definition t_raw : raw_t := Eval vm_compute in match snd (raw_of 6 (session q_doc q_calls)) with Ok x => x | Raise _ => RawDocument [] end.
Lemma t_tree : raw_tree q_doc (c_heap (ctx_of q_doc)) 7 t_raw.
Proof. apply (raw_only q_parsed (session q_doc q_calls) 6 CSection 7 t_raw q_ends q_not_mirrored q_reach q_names). vm_compute. reflexivity. Qed.
Lemma q_members : length (raw_members q_raw) = 5 /\ raw_members t_raw = [RawField None (U "z") (Some (U "3")); RawField None (U "x") (Some (U "2")); RawEmpty None (U "y")].
Proof. split; reflexivity. Qed.

(** a list and a fieldset *)
Definition members_of {A} (m : st * res (list A)) : list A := match snd m with Ok l => l | Raise _ => [] end.
Lemma m_not_copied : no_section_copies (c_heap (ctx_of m_doc)) /\ forall i, hollow_comment (c_heap (ctx_of m_doc)) i = false.
Proof.
  split.
  - assert (forall h, forallb (fun n => negb (itype_eqb (n_type n) SECTION)) h = true -> no_section_copies h) as G.
    { intros h H e He. unfold is_section in He. rewrite forallb_forall in H. destruct (Nat.lt_ge_cases e (length h)) as [Hl|Hl].
      - specialize (H (hget h e) (nth_In _ _ Hl)). rewrite He in H. discriminate.
      - unfold hget in He. rewrite nth_overflow in He by assumption. discriminate. }
    apply G. vm_compute. reflexivity.
  - assert (forall h, forallb (fun i => negb (hollow_comment h i)) (seq 0 (length h)) = true -> forall i, hollow_comment h i = false) as G.
    { intros h H i. rewrite forallb_forall in H. destruct (Nat.lt_ge_cases i (length h)) as [Hl|Hl].
      - specialize (H i). destruct (hollow_comment h i); [|reflexivity]. assert (In i (seq 0 (length h))) as Hi by (apply in_seq; lia). specialize (H Hi). discriminate H.
      - unfold hollow_comment, hget. rewrite nth_overflow by assumption. reflexivity. }
    apply G. vm_compute. reflexivity.
Qed.

(** the order of raw() is not that of elements() *)
Lemma other_order : exists inp s o e x s' ys, parse_context inp en TextReporter None = Ok (ctx_of inp) /\ reach (ctx_of inp) s /\ names s o CSection e /\
  snd (raw_of o s) = Ok x /\ section_elements o None s = (s', Ok ys) /\ ~ Forall2 (fun y z => snd (raw_of y s') = Ok z) ys (raw_members x).
Proof.
  exists q_doc, (session q_doc q_calls), 6, 7, t_raw, (fst (section_elements 6 None (session q_doc q_calls))), [7; 8; 9].
  split; [exact q_parsed|]. split; [exact q_reach|]. split; [exact q_names|]. split; [vm_compute; reflexivity|]. split; [vm_compute; reflexivity|].
  intro H. inversion H as [|y z ys zs Hy Hys]; subst. vm_compute in Hy. discriminate Hy.
Qed.

(** raw() of a document in which a section is nothing but a copy *)
Definition bare_doc : text := U "# s
a: 1
# t < s".
Lemma bare_raises : exists inp ys, parse_context inp en TextReporter None = Ok (ctx_of inp) /\ reach (ctx_of inp) (begin inp) /\ names (begin inp) 0 CSection 0 /\
  snd (section_elements 0 None (begin inp)) = Ok ys /\ snd (raw_of 0 (begin inp)) = Raise TypeError.
Proof.
  exists bare_doc, [1; 2]. split; [vm_compute; reflexivity|]. split; [apply (session_reach bare_doc []); vm_compute; reflexivity|].
  split; [split; [cbn; lia|split; reflexivity]|]. split; vm_compute; reflexivity.
Qed.
Lemma m_raws : let h := c_heap (ctx_of m_doc) in let s := session m_doc m_calls in
  (exists x, raw_tree m_doc h 5 x) /\ n_type (hget h 5) = LIST /\ (exists w x y z, snd (list_items 4 s) = Ok [w; x; y; z]) /\
  (exists x, raw_tree m_doc h 7 x) /\ n_type (hget h 7) = FIELDSET /\ (exists x y z, snd (fieldset_entries 5 None s) = Ok [x; y; z]).
Proof.
  cbv zeta. pose proof (fun e => raw_total m_parsed e (proj1 m_not_copied) (proj2 m_not_copied)) as G.
  split; [apply G; apply Nat.ltb_lt; vm_compute; reflexivity|]. split; [vm_compute; reflexivity|]. split; [do 4 eexists; vm_compute; reflexivity|].
  split; [apply G; apply Nat.ltb_lt; vm_compute; reflexivity|]. split; [vm_compute; reflexivity|]. do 3 eexists; vm_compute; reflexivity.
Qed.

(** three sections that extend each other *)
Definition round_doc : text := U "# a
## w < w
p: 1
# b << a
## w < w
q: 2
# c << b
## w
r: 3".
Definition round_calls : list call := [Query (Some KSection) 0 (Some (U "b")) None; Query (Some KSection) 4 (Some (U "w")) None; Raw 6].
Definition round_raw (b : list raw_t) (d : list raw_t) : raw_t :=
  RawDocument [RawSection None (U "a") [RawSection None (U "w") [RawField None (U "q") (Some (U "2")); RawField None (U "r") (Some (U "3")); RawField None (U "p") (Some (U "1"))]];
    RawSection None (U "b") [RawSection None (U "w") b]; RawSection None (U "c") [RawSection None (U "w") d]].
Lemma earlier_calls : exists inp s s' x y, parse_context inp en TextReporter None = Ok (ctx_of inp) /\ reach (ctx_of inp) s /\ reach (ctx_of inp) s' /\
  names s 0 CSection 0 /\ names s' 0 CSection 0 /\ snd (raw_of 0 s) = Ok x /\ snd (raw_of 0 s') = Ok y /\ x <> y.
Proof.
  exists round_doc, (begin round_doc), (session round_doc round_calls),
    (round_raw [RawField None (U "p") (Some (U "1")); RawField None (U "q") (Some (U "2"))] [RawField None (U "p") (Some (U "1")); RawField None (U "q") (Some (U "2")); RawField None (U "r") (Some (U "3"))]),
    (round_raw [RawField None (U "r") (Some (U "3")); RawField None (U "p") (Some (U "1")); RawField None (U "q") (Some (U "2"))] [RawField None (U "q") (Some (U "2")); RawField None (U "r") (Some (U "3"))]).
  split; [vm_compute; reflexivity|]. split; [apply (session_reach round_doc []); vm_compute; reflexivity|]. split; [apply session_reach; vm_compute; reflexivity|].
  split; [split; [cbn; lia|split; reflexivity]|]. split; [split; [apply Nat.ltb_lt; vm_compute; reflexivity|split; vm_compute; reflexivity]|].
  split; [vm_compute; reflexivity|]. split; [vm_compute; reflexivity|]. intro E. injection E as E _. discriminate E.
Qed.
