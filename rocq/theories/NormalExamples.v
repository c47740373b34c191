(** NormalExamples: documents for PropNormal. *)
From Verif Require Import Base Types Messages Reporter Errors Context Elements SpecText SpecTree SpecCanon SpecApi SpecRaw SpecLoad SpecNormal SpecQuery Session SessionRun.

(** copies of elements, continuations, comments, quoted keys, multiline fields *)
Definition mixed : text := text_of
  [U "   >  first"; U "> "; U ">second"; U " ` k `  :   one"; U "| two"; U "\ three  "; [];
   U "l:"; U "-  a"; U "\ b"; U "> note"; U "-"; U "m < l"; U "- c"; U "n < m"; [];
   U "f:"; U "x = 1"; U "y = 2"; U "g < f"; U "y = 3"; [];
   U "-- t"; U "  text"; U "-- t"; U "u < t"; [];
   U "# s"; U "k: v"; U "e:"; U "## r"; U "q: w"; U "> lost"; []; U "# s < s2"; U "k: own"; U "# s2"; U "j: b"; U "k: c"; [];
   U "# a"; U "ff:"; U "## in"; U "x: 1"; U "y: 2"; U "# b << a"; U "gg:"; U "## in"; U "x: 3"].
(** the same document, written canonically *)
Definition mixed_lines : list text :=
  [U ">      first"; U ">"; U "> second"; U "k: onetwo three";
   U "l:"; U "- a b"; U "> note"; U "-"; U "m:"; U "- a b"; U "> note"; U "-"; U "- c"; U "n:"; U "- a b"; U "> note"; U "-"; U "- c";
   U "f:"; U "x = 1"; U "y = 2"; U "g:"; U "x = 1"; U "y = 3";
   U "-- t"; U "  text"; U "-- t"; U "-- u"; U "  text"; U "-- u";
   U "# s"; U "k: v"; U "e:"; U "## r"; U "q: w"; U "# s"; U "j: b"; U "k: own"; U "# s2"; U "j: b"; U "k: c";
   U "# a"; U "ff:"; U "## in"; U "x: 1"; U "y: 2"; U "# b"; U "ff:"; U "gg:"; U "## in"; U "y: 2"; U "x: 3"].
Definition mixed_raw : raw_t := match snd (raw_of 0 (begin mixed)) with Ok x => x | _ => RawDocument [] end.

Definition replaced_b (h : heap) : bool :=
  forallb (fun n => match n_mirror n, n_extend n with
    | None, Some t => forallb (fun x => negb (itype_eqb (n_type (hget h x)) SECTION) || existsb (fun y => match n_key (hget h y), n_key (hget h x) with Some a, Some b => text_eqb a b | _, _ => false end) (n_elements n)) (n_elements (hget h t))
    | _, _ => true
    end) h.
Lemma replaced_true h : replaced_b h = true -> takes_no_sections h.
Proof.
  unfold replaced_b. rewrite forallb_forall. intros H e t x He [H1 H2] Hx Hs.
  assert (In (hget h e) h) as K.
  { destruct (Nat.lt_ge_cases e (length h)) as [Hl|Hl]; [now apply nth_In|]. unfold is_section, hget in He. rewrite nth_overflow in He by assumption. discriminate. }
  specialize (H _ K). rewrite H1, H2 in H. rewrite forallb_forall in H. specialize (H x Hx). rewrite Hs in H. cbn [itype_eqb negb orb] in H.
  apply existsb_exists in H as (y & Y1 & Y2). exists y. split; [assumption|]. destruct (n_key (hget h y)) as [a|], (n_key (hget h x)) as [b|]; try discriminate.
  cbn in Y2. apply text_eqb_eq in Y2. congruence.
Qed.

Lemma mixed_parsed : parse_context mixed en TextReporter None = Ok (ctx_of mixed) /\ takes_no_sections (c_heap (ctx_of mixed)).
Proof. split; [vm_compute; reflexivity|]. apply replaced_true. vm_compute. reflexivity. Qed.
Lemma mixed_described : snd (raw_of 0 (begin mixed)) = Ok mixed_raw /\ canonical mixed_raw = text_of mixed_lines.
Proof. split; vm_compute; reflexivity. Qed.
Lemma mixed_back : snd (raw_of 0 (begin (text_of mixed_lines))) = Ok mixed_raw.
Proof. vm_compute. reflexivity. Qed.
Lemma begins inp : names (begin inp) 0 CSection 0 /\ reach (ctx_of inp) (begin inp).
Proof. split; [split; [cbn; lia|split; reflexivity]|]. exists (begin inp). split; constructor. Qed.

(** a section that copies a section with sections *)
Definition swallowed : text := text_of [U "# a"; U "## s"; U "# b < a"; U "k: v"].
Definition swallowed_raw : raw_t := RawDocument
  [RawSection None (U "a") [RawSection None (U "s") []]; RawSection None (U "b") [RawSection None (U "s") []; RawField None (U "k") (Some (U "v"))]].
Lemma swallowed_described : parse_context swallowed en TextReporter None = Ok (ctx_of swallowed) /\ snd (raw_of 0 (begin swallowed)) = Ok swallowed_raw.
Proof. split; vm_compute; reflexivity. Qed.
Lemma swallowed_back : parse_context (canonical swallowed_raw) en TextReporter None = Ok (ctx_of (canonical swallowed_raw)) /\
  snd (raw_of 0 (begin (canonical swallowed_raw))) = Ok (RawDocument
  [RawSection None (U "a") [RawSection None (U "s") []]; RawSection None (U "b") [RawSection None (U "s") [RawField None (U "k") (Some (U "v"))]]]).
Proof. split; vm_compute; reflexivity. Qed.
